(** C89: The ARINC port services do to the port what the standard says and report it. *)
From Verif Require Import Model.Base Model.Port Model.ArincPort Spec.PortSpec Spec.PortDemo Spec.ArincPorts Spec.ChanSpec Proof.Tac Proof.PortInv Proof.PortWait Proof.PortChan Proof.SampChan Props.C26_Sampling.

Lemma u32_in : forall x, 0 <= x < 2 ^ 32 -> u32 x = x.
Proof. intros x H. unfold u32. now apply Z.mod_small. Qed.

(** What a service leaves behind. *)
Definition after (r : sres) : pstate := match r with SRet s _ _ => s | _ => ports_boot end.
Definition answer (r : sres) : Z * sout := match r with SRet _ c o => (c, o) | _ => (-1, SNone) end.
Lemma returned : forall r c o, answer r = (c, o) -> c <> -1 -> r = SRet (after r) c o.
Proof. intros [s c0 o0|s w|] c o H N; cbn in H; [now injection H as -> ->|..]; injection H as <- _; contradiction. Qed.

(** A sampling port that is created is the one of that name, with the size, the direction and the refresh period that were
    asked for, up to 4.29 seconds; no other port changes. *)
Theorem C89_create_sampling_partial : forall cfg now part junk state name max d refresh s s' o, pcfg_ok cfg ->
  0 <= max < 2 ^ 31 -> 0 <= refresh < 2 ^ 32 ->
  create_sampling_port cfg now part junk state name max (direction_number d) refresh s = SRet s' NO_ERROR o ->
  exists id, o = SId id /\ designates cfg part PK_SAMPLING name id /\ other_ports s s' id /\
    pt_ready (ps_port s id) = false /\ pt_ready (ps_port s' id) = true /\ pt_size (ps_port s' id) = max /\
    has_direction (ps_port s' id) d /\ pt_refresh (ps_port s' id) = refresh /\ pt_kind (ps_port s' id) = PK_SAMPLING /\
    pt_part (ps_port s' id) = part.
Proof.
  intros cfg now part junk state name max d refresh s s' o C Hm Hr H. unfold create_sampling_port in H.
  destruct (state =? 3); [discriminate|]. destruct ((max <=? 0) || (refresh <? 0)); [discriminate|].
  assert (Hd : exists k, core_direction (direction_number d) = Some k /\ u8 k = k /\ (match d with Source => k = 2 | Destination => k = 1 end)).
  { destruct d; eexists; repeat split. }
  destruct Hd as (k & E & Hk & K). rewrite E in H. cbn [port_call] in H. rewrite Hk, (u32_in max), (u32_in refresh) in H by lia.
  unfold sampling_create in H. destruct (port_create cfg part name max k PK_SAMPLING s) as [[s1 e] [id|]] eqn:P;
    destruct (create_cases cfg _ _ _ _ _ _ _ _ _ ltac:(destruct C; lia) P) as [[-> N] | (i & Ei & -> & Hi & Ek & Eo & En & R0 & _ & _ & _ & _ & _ & Oth & New)].
  - destruct (e =? ERR_OK) eqn:Ee; [apply Z.eqb_eq in Ee; contradiction|]. cbn [created] in H.
    assert (e = NO_ERROR) by congruence. contradiction.
  - injection Ei as <-. cbn [Z.eqb created ERR_OK] in H. injection H as <- <-. exists id. split; [reflexivity|].
    split; [split; [|split; [|split]]; assumption|].
    cbn [on_port ps_port]. unfold upd. rewrite Z.eqb_refl, New. cbn [set_pt_fresh pt_ready pt_size pt_dir pt_refresh pt_kind pt_part].
    split; [intros j Nj; cbn [on_port ps_port]; unfold upd; destruct (Z.eqb_spec j id); [contradiction|now apply Oth]|].
    repeat (split; [first [assumption|reflexivity|destruct d; exact K]|]). reflexivity.
  - cbn [created] in H. assert (e = NO_ERROR) by congruence. contradiction.
  - discriminate.
Qed.
Print Assumptions C89_create_sampling_partial.
Example C89_create_sampling_example : exists s', create_sampling_port pdemo 0 0 77 1 2 16 (direction_number Source) 1000000 ports_boot = SRet s' NO_ERROR (SId 2).
Proof. eexists. vm_compute. reflexivity. Qed.

(** Longer refresh periods are cut to 32 bits: 5 seconds become 0.7. *)
Theorem C89_refresh_refuted : ~ (forall cfg now part junk state name max d refresh s s' id, pcfg_ok cfg ->
  0 <= max < 2 ^ 31 -> 0 <= refresh < 2 ^ 63 ->
  create_sampling_port cfg now part junk state name max (direction_number d) refresh s = SRet s' NO_ERROR (SId id) ->
  pt_refresh (ps_port s' id) = refresh).
Proof.
  intros H. assert (E : 705032704 = 5000000000); [|discriminate].
  refine (H pdemo 0 0 77 1 2 16 Source 5000000000 ports_boot _ 2 pdemo_ok _ _ eq_refl); lia.
Qed.
Print Assumptions C89_refresh_refuted.

(** A queueing port: as above, for sizes that fit. *)
Theorem C89_create_queuing_partial : forall cfg now part junk name max nb d disc s s' o, pcfg_ok cfg ->
  0 <= max * nb < 2 ^ 32 ->
  create_queuing_port cfg now part junk name max nb (direction_number d) disc s = SRet s' NO_ERROR o ->
  exists id, o = SId id /\ designates cfg part PK_QUEUEING name id /\ other_ports s s' id /\ disc = 0 /\
    (pt_ready (ps_port s id) = true /\ s' = s \/
     pt_ready (ps_port s id) = false /\ pt_ready (ps_port s' id) = true /\ pt_size (ps_port s' id) = max * nb /\
     has_direction (ps_port s' id) d /\ pt_kind (ps_port s' id) = PK_QUEUEING /\ pt_part (ps_port s' id) = part).
Proof.
  intros cfg now part junk name max nb d disc s s' o C Hm H. unfold create_queuing_port in H.
  destruct (negb ((disc =? 0) || (disc =? 1))); [discriminate|].
  assert (Hd : exists k, core_direction (direction_number d) = Some k /\ u8 k = k /\ (match d with Source => k = 2 | Destination => k = 1 end)).
  { destruct d; eexists; repeat split. }
  destruct Hd as (k & E & Hk & K). rewrite E in H. cbn [port_call] in H. rewrite Hk, (u32_in (max * nb)) in H by lia.
  unfold queueing_create in H. destruct (Z.eqb_spec disc 0) as [-> | Nd]; cbn [negb] in H; [|discriminate].
  destruct (port_create cfg part name (max * nb) k PK_QUEUEING s) as [[s1 e] [id|]] eqn:P.
  - destruct (create_cases cfg _ _ _ _ _ _ _ _ _ ltac:(destruct C; lia) P) as [[-> N] | (i & Ei & -> & Hi & Ek & Eo & En & R0 & _ & _ & _ & _ & _ & Oth & New)].
    + destruct (e =? ERR_OK) eqn:Ee; [apply Z.eqb_eq in Ee; contradiction|]. destruct (Z.eqb_spec e ERR_EXISTS) as [-> | Nx].
      * cbn [created] in H. injection H as <- <-. exists id.
        assert (D : designates cfg part PK_QUEUEING name id /\ pt_ready (ps_port s id) = true).
        { unfold port_create in P. destruct (PORT_MAX_SIZE <? max * nb); [discriminate|]. destruct (ps_avail s <? max * nb); [discriminate|].
          destruct (negb (k =? DIR_IN) && negb (k =? DIR_OUT)); [discriminate|].
          destruct (port_id cfg part PK_QUEUEING name) as [e0 [j|]] eqn:Q; [|discriminate].
          destruct (port_id_found cfg part PK_QUEUEING name (Z.to_nat (q_nports cfg)) 0 j) as (H1 & H2 & H3 & H4);
            [destruct C; lia|lia|unfold port_id in Q; rewrite Q; reflexivity|].
          destruct (pt_ready (ps_port s j)) eqn:R; [|discriminate]. injection P as <-. split; [repeat split; assumption || lia|exact R]. }
        destruct D as [D R]. split; [reflexivity|]. split; [exact D|]. split; [intros j _; reflexivity|]. split; [reflexivity|]. left. now split.
      * cbn [created] in H. assert (e = NO_ERROR) by congruence. contradiction.
    + injection Ei as <-. cbn [Z.eqb created ERR_OK] in H. injection H as <- <-. exists id. split; [reflexivity|].
      split; [split; [|split; [|split]]; assumption|].
      cbn [on_port ps_port]. unfold upd. rewrite Z.eqb_refl, New. cbn [set_pt_fresh pt_ready pt_size pt_dir pt_refresh pt_kind pt_part].
      split; [intros j Nj; cbn [on_port ps_port]; unfold upd; destruct (Z.eqb_spec j id); [contradiction|now apply Oth]|].
      split; [reflexivity|]. right. repeat (split; [first [assumption|reflexivity|destruct d; exact K]|]). reflexivity.
  - destruct (create_cases cfg _ _ _ _ _ _ _ _ _ ltac:(destruct C; lia) P) as [[-> N] | (i & Ei & _)]; [|discriminate].
    cbn [created] in H. assert (e = NO_ERROR) by congruence. contradiction.
Qed.
Print Assumptions C89_create_queuing_partial.
Example C89_create_queuing_example : exists s', create_queuing_port pdemo 0 0 77 0 16 4 (direction_number Source) 0 ports_boot = SRet s' NO_ERROR (SId 0).
Proof. eexists. vm_compute. reflexivity. Qed.

(** NO_ERROR does not say that the port has the size that was asked for: a port that exists keeps its own, and the product of
    size and number can wrap to a small number. *)
Theorem C89_queuing_size_refuted : ~ (forall cfg now part junk name max nb d disc s s' id, pcfg_ok cfg -> 0 <= max < 2 ^ 31 -> 0 <= nb < 2 ^ 31 ->
  create_queuing_port cfg now part junk name max nb (direction_number d) disc s = SRet s' NO_ERROR (SId id) ->
  pt_size (ps_port s' id) = max * nb).
Proof.
  intros H. assert (E : 4 = 1073741825 * 4); [|discriminate].
  refine (H pdemo 0 0 77 0 1073741825 4 Source 0 ports_boot _ 0 pdemo_ok _ _ eq_refl); lia.
Qed.
Print Assumptions C89_queuing_size_refuted.
Theorem C89_queuing_again_refuted : ~ (forall cfg now part junk name max nb d disc s s' id, pcfg_ok cfg -> 0 <= max * nb < 2 ^ 31 ->
  create_queuing_port cfg now part junk name max nb (direction_number d) disc s = SRet s' NO_ERROR (SId id) ->
  pt_size (ps_port s' id) = max * nb).
Proof.
  intros H. assert (P : exists s1, create_queuing_port pdemo 0 0 77 0 16 4 0 0 ports_boot = SRet s1 NO_ERROR (SId 0) /\
    create_queuing_port pdemo 0 0 77 0 100 2 0 0 s1 = SRet s1 NO_ERROR (SId 0) /\ pt_size (ps_port s1 0) = 64).
  { eexists. split; [vm_compute; reflexivity|]. split; vm_compute; reflexivity. }
  destruct P as (s1 & _ & B & S1). assert (E : pt_size (ps_port s1 0) = 100 * 2); [|rewrite S1 in E; discriminate].
  exact (H pdemo 0 0 77 0 100 2 Source 0 s1 s1 0 pdemo_ok ltac:(lia) B).
Qed.
Print Assumptions C89_queuing_again_refuted.

(** Refused parameters change nothing. *)
Theorem C89_refused : forall cfg now part junk state name max nb dir refresh disc id data ptr len s,
  ((state = 3 \/ max <= 0 \/ refresh < 0 \/ dir < 0 \/ 1 < dir) -> exists c, create_sampling_port cfg now part junk state name max dir refresh s = SRet s c SNone /\ c <> NO_ERROR /\ is_code c) /\
  ((disc < 0 \/ 1 < disc \/ dir < 0 \/ 1 < dir) -> create_queuing_port cfg now part junk name max nb dir disc s = SRet s INVALID_PARAM SNone) /\
  (len <= 0 -> write_sampling_message cfg now part id data ptr len s = SRet s INVALID_PARAM SNone).
Proof.
  intros. split; [|split].
  - intros H. unfold create_sampling_port. destruct (Z.eqb_spec state 3); [exists INVALID_MODE; split; [reflexivity|split; [discriminate|unfold is_code, INVALID_MODE; lia]]|].
    destruct (Z.leb_spec max 0); cbn [orb]; [exists INVALID_CONFIG; split; [reflexivity|split; [discriminate|unfold is_code, INVALID_CONFIG; lia]]|].
    destruct (Z.ltb_spec refresh 0); [exists INVALID_CONFIG; split; [reflexivity|split; [discriminate|unfold is_code, INVALID_CONFIG; lia]]|].
    unfold core_direction. destruct (Z.eqb_spec dir 0); [lia|]. destruct (Z.eqb_spec dir 1); [lia|].
    exists INVALID_PARAM. split; [reflexivity|split; [discriminate|unfold is_code, INVALID_PARAM; lia]].
  - intros H. unfold create_queuing_port, core_direction. destruct (Z.eqb_spec disc 0); destruct (Z.eqb_spec disc 1); cbn [orb negb]; try reflexivity; try lia;
      (destruct (Z.eqb_spec dir 0); [lia|]; destruct (Z.eqb_spec dir 1); [lia|reflexivity]).
  - intros H. unfold write_sampling_message. destruct (Z.leb_spec len 0); [reflexivity|lia].
Qed.
Print Assumptions C89_refused.
Example C89_refused_example : create_sampling_port pdemo 0 0 77 1 2 16 7 100 ports_boot = SRet ports_boot INVALID_PARAM SNone.
Proof. reflexivity. Qed.

(** The identifier of a sampling port. *)
Theorem C89_sampling_id : forall cfg part junk name s s' o, pcfg_ok cfg -> get_sampling_port_id cfg part junk name s = SRet s' NO_ERROR o ->
  s' = s /\ exists id, o = SId id /\ designates cfg part PK_SAMPLING name id.
Proof.
  intros cfg part junk name s s' o C H. unfold get_sampling_port_id in H. destruct (port_id cfg part PK_SAMPLING name) as [e [id|]] eqn:Q.
  - injection H as <- -> <-. split; [reflexivity|]. exists id. split; [reflexivity|].
    destruct (port_id_found cfg part PK_SAMPLING name (Z.to_nat (q_nports cfg)) 0 id) as (H1 & H2 & H3 & H4);
      [destruct C; lia|lia|unfold port_id in Q; rewrite Q; reflexivity|]. repeat split; assumption || lia.
  - exfalso. injection H as <- -> <-. revert Q. unfold port_id. set (i := 0). clearbody i. revert i.
    induction (Z.to_nat (q_nports cfg)) as [|n IH]; intros i; cbn [port_id_loop]; [discriminate|].
    destruct (_ && _); [|apply IH]. destruct (own_port cfg part i) as [[]|]; discriminate.
Qed.
Print Assumptions C89_sampling_id.
Example C89_sampling_id_example : get_sampling_port_id pdemo 0 77 2 ports_boot = SRet ports_boot NO_ERROR (SId 2).
Proof. reflexivity. Qed.

(** Identifiers are cut to eight bits: a message for a port that does not exist is written to one that does. *)
Theorem C89_identifier_refuted : ~ (forall cfg now part id data ptr len s s' o, pcfg_ok cfg -> 0 <= part < q_nparts cfg -> 0 <= id < 2 ^ 31 ->
  write_sampling_message cfg now part id data ptr len s = SRet s' NO_ERROR o -> 0 <= id < q_nports cfg /\ q_owner cfg id = part).
Proof.
  intros H. assert (P : exists s1 s2, create_sampling_port pdemo 0 0 77 1 2 16 0 1000 ports_boot = SRet s1 NO_ERROR (SId 2) /\
    write_sampling_message pdemo 5 0 258 (from_val 10) 64 8 s1 = SRet s2 NO_ERROR SNone).
  { eexists _, _. split; vm_compute; reflexivity. }
  destruct P as (s1 & s2 & _ & W). destruct (H pdemo 5 0 258 (from_val 10) 64 8 s1 s2 SNone pdemo_ok) as [A _]; [cbn; lia|lia|exact W|].
  cbn in A. lia.
Qed.
Print Assumptions C89_identifier_refuted.

(** For the other identifiers, and messages below 256 bytes: the port is a source of the partition, the message is stored in it
    with its date, and nothing else changes. *)
Theorem C89_write_partial : forall cfg now part id data ptr len s s' o, 0 <= id < 256 -> len < 256 ->
  write_sampling_message cfg now part id data ptr len s = SRet s' NO_ERROR o ->
  0 <= id < q_nports cfg /\ q_owner cfg id = part /\ has_direction (ps_port s id) Source /\ 0 < len <= pt_size (ps_port s id) /\ other_ports s s' id /\
  (pt_kind (ps_port s id) = PK_SAMPLING ->
     let at_ := pt_index (ps_port s id) + pt_e (ps_port s id) in
     (forall k, 0 <= k < len -> ps_pool s' (at_ + k) = data k) /\ (forall a, a < at_ \/ at_ + len <= a -> ps_pool s' a = ps_pool s a) /\
     pt_last (ps_port s' id) = now /\ pt_empty (ps_port s' id) = false /\ pt_index (ps_port s' id) + pt_e (ps_port s' id) = at_).
Proof.
  intros cfg now part id data ptr len s s' o Hi Hl H. unfold write_sampling_message in H. destruct (Z.leb_spec len 0); [discriminate|].
  cbn [port_call] in H. assert (Hu : u8 (u8 id) = id) by (unfold u8; rewrite !Z.mod_small by lia; reflexivity).
  assert (Hv : u8 len = len) by (unfold u8; apply Z.mod_small; lia). rewrite Hu, Hv in H. clear Hu Hv.
  destruct (check_ptr cfg part (u32 ptr) (u32 len)); [|discriminate]. unfold sampling_write, owned in H.
  destruct (Z.ltb_spec (q_nports cfg) id); [discriminate|]. unfold own_port in H. destruct (Z.ltb_spec (q_nports cfg) id); [lia|].
  destruct (Z.eqb_spec id (q_nports cfg)); [discriminate|]. destruct (Z.eqb_spec (q_owner cfg id) part); [|discriminate].
  destruct (pt_ready (ps_port s id)); [|discriminate]. destruct (Z.ltb_spec (pt_size (ps_port s id)) len); [discriminate|].
  destruct (Z.eqb_spec (pt_dir (ps_port s id)) DIR_OUT) as [D|]; [|discriminate]. cbn [negb] in H.
  split; [lia|]. split; [assumption|]. split; [exact D|]. split; [lia|].
  assert (G : forall s1, (forall j, j <> id -> ps_port s1 j = ps_port s j) -> ps_pool s1 = ps_pool s -> pt_kind (ps_port s1 id) = pt_kind (ps_port s id) ->
     pt_size (ps_port s1 id) = pt_size (ps_port s id) -> pt_index (ps_port s1 id) = pt_index (ps_port s id) -> pt_e (ps_port s1 id) = pt_e (ps_port s id) ->
     match write_port now id data len s1 with
     | None => PUb
     | Some (s2, _) => PRet (on_port id (set_pt_flush true) (unlock_port id s2)) ERR_OK ONone
     end = PRet s' NO_ERROR ONone ->
     other_ports s s' id /\ (pt_kind (ps_port s id) = PK_SAMPLING ->
     let at_ := pt_index (ps_port s id) + pt_e (ps_port s id) in
     (forall k, 0 <= k < len -> ps_pool s' (at_ + k) = data k) /\ (forall a, a < at_ \/ at_ + len <= a -> ps_pool s' a = ps_pool s a) /\
     pt_last (ps_port s' id) = now /\ pt_empty (ps_port s' id) = false /\ pt_index (ps_port s' id) + pt_e (ps_port s' id) = at_)).
  { intros s1 O1 P1 K1 S1 I1 E1 W. unfold write_port in W. destruct (port_write now (ps_pool s1) (ps_port s1 id) data len) as [[[pool p] e1]|] eqn:PW; [|discriminate].
    injection W as <-. split.
    - intros j Nj. unfold unlock_port. cbn [on_port ps_port set_ps_pool]. unfold upd. destruct (Z.eqb_spec j id); [contradiction|]. now apply O1.
    - intros K at_. unfold port_write in PW. rewrite K1, K, S1 in PW. cbn [PK_SAMPLING PK_QUEUEING Z.eqb] in PW.
      change (PK_SAMPLING =? PK_QUEUEING) with false in PW. change (PK_SAMPLING =? PK_SAMPLING) with true in PW. cbn iota in PW.
      destruct (Z.ltb_spec (pt_size (ps_port s id)) len); [lia|]. injection PW as <- <- _.
      unfold unlock_port. cbn [on_port ps_port ps_pool set_ps_pool]. unfold upd. rewrite !Z.eqb_refl. rewrite I1, E1, P1. fold at_. unfold blit.
      split; [|split; [|split; [|split]]].
      + intros k Hk. destruct (Z.leb_spec at_ (at_ + k)); [|lia]. destruct (Z.ltb_spec (at_ + k) (at_ + len)); [|lia]. cbn [andb]. f_equal. lia.
      + intros a Ha. destruct (Z.leb_spec at_ a); [|reflexivity]. destruct (Z.ltb_spec a (at_ + len)); [lia|reflexivity].
      + reflexivity.
      + reflexivity.
      + cbn. now rewrite I1. }
  assert (H' : exists r, r = PRet s' NO_ERROR ONone /\ lock_port id s
    match write_port now id data len s with None => PUb | Some (s2, _) => PRet (on_port id (set_pt_flush true) (unlock_port id s2)) ERR_OK ONone end
    (fun s1 => match write_port now id data len s1 with None => PUb | Some (s2, _) => PRet (on_port id (set_pt_flush true) (unlock_port id s2)) ERR_OK ONone end) = r).
  { eexists. split; [|reflexivity]. cbv zeta in H. unfold lock_port in *. destruct (negb (pt_linit (ps_port s id))).
    - destruct (write_port now id data len s) as [[]|]; [|discriminate]. injection H as <- _. reflexivity.
    - destruct (pt_free (ps_port s id)); [|discriminate]. destruct (write_port now id data len _) as [[]|]; [|discriminate]. injection H as <- _. reflexivity. }
  destruct H' as (r & -> & L). unfold lock_port in L. destruct (negb (pt_linit (ps_port s id))); [apply (G s); auto|].
  destruct (pt_free (ps_port s id)); [|discriminate]. apply (G (on_port id (set_pt_free false) s)); auto; cbn [on_port ps_port]; unfold upd; rewrite ?Z.eqb_refl; try reflexivity.
  intros j Nj. destruct (Z.eqb_spec j id); [contradiction|reflexivity].
Qed.
Print Assumptions C89_write_partial.
Example C89_write_example : answer (write_sampling_message pdemo 5 0 2 (from_val 10) 64 8 (after (create_sampling_port pdemo 0 0 77 1 2 16 0 1000 ports_boot))) = (NO_ERROR, SNone).
Proof. vm_compute. reflexivity. Qed.
(** The service does not ask whether the port is a sampling port: a sampling message can be put into a queue. *)
Theorem C89_write_kind_refuted : ~ (forall cfg now part id data ptr len s s' o, pcfg_ok cfg -> 0 <= part < q_nparts cfg -> 0 <= id < 256 ->
  write_sampling_message cfg now part id data ptr len s = SRet s' NO_ERROR o -> q_kind cfg id = PK_SAMPLING).
Proof.
  intros H. set (s1 := after (create_queuing_port pdemo 0 0 77 0 16 4 0 0 ports_boot)).
  assert (W : answer (write_sampling_message pdemo 5 0 0 (from_val 10) 64 8 s1) = (NO_ERROR, SNone)) by (vm_compute; reflexivity).
  apply returned in W; [|discriminate]. pose proof (H pdemo 5 0 0 (from_val 10) 64 8 s1 _ SNone pdemo_ok ltac:(cbn; lia) ltac:(lia) W). discriminate.
Qed.
Print Assumptions C89_write_kind_refuted.

(** A read returns what the port holds, and reports it as valid if it is not older than the refresh period. *)
Theorem C89_read : forall cfg, pcfg_ok cfg -> forall m now part id ptr s' d v, preachable cfg m -> 0 <= part < q_nparts cfg -> 0 <= now < 2 ^ 64 -> 0 <= id < 256 ->
  read_sampling_message cfg now part id ptr (fst m) = SRet s' NO_ERROR (SMsg d v) ->
  stored_in (fst m) id = Some d /\ stored_in s' id = Some d /\
  (let p := ps_port (fst m) id in 0 <= pt_last p + pt_refresh p < 2 ^ 64 -> (v = 1 <-> now <= pt_last p + pt_refresh p)).
Proof.
  intros cfg C m now part id ptr s' d v R Hp Hn Hi H. unfold read_sampling_message in H.
  destruct (port_call cfg now part (RRead (u8 id) ptr) (fst m)) as [s1 e [|id0|d0|d0 b|z1 z2 z3 z4]|s1 w| |] eqn:E; try discriminate.
  injection H as -> -> -> <-. destruct (C26_read cfg C m now part (u8 id) ptr s' _ _ R Hp Hn E) as (_ & K & St & _).
  assert (Hu : u8 (u8 id) = id) by (unfold u8; rewrite !Z.mod_small by lia; reflexivity). rewrite Hu in *.
  destruct (K eq_refl) as (d1 & v1 & S1 & [= -> ->] & V). rewrite St. split; [exact S1|]. split; [exact S1|].
  cbv zeta in *. intros Hr. rewrite <- (V Hr). destruct v1; split; intros; (reflexivity || discriminate).
Qed.
Print Assumptions C89_read.
Example C89_read_example : match pdemo_run (p_s 4 100 ++ [p_write 2 10 4; PFlushPart 0 4]) with
  | Some (m, _) => answer (read_sampling_message pdemo 5 1 3 64 (fst m)) = (NO_ERROR, SMsg [10; 11; 12; 13] 1) /\
                   answer (read_sampling_message pdemo 200 1 3 64 (fst m)) = (NO_ERROR, SMsg [10; 11; 12; 13] 0)
  | None => False
  end.
Proof. vm_compute. split; reflexivity. Qed.

(** The status of a sampling port: size, refresh period and validity are those of the port, and so is the direction of
    destinations. *)
Theorem C89_status_partial : forall cfg now part junk id s s' size dir refresh v,
  0 <= id < 256 -> get_sampling_port_status cfg now part junk id s = SRet s' NO_ERROR (SStat size dir refresh v) ->
  s' = s /\ size = pt_size (ps_port s id) /\ refresh = pt_refresh (ps_port s id) /\
  (v = 1 <-> now <= u64 (pt_last (ps_port s id) + pt_refresh (ps_port s id))) /\
  (has_direction (ps_port s id) Destination -> dir = direction_number Destination).
Proof.
  intros cfg now part junk id s s' size dir refresh v Hi H. unfold get_sampling_port_status in H. cbn [port_call] in H.
  assert (Hu : u8 id = id) by (unfold u8; apply Z.mod_small; lia). rewrite Hu in H. unfold sampling_status, owned in H.
  destruct (q_nports cfg <? id); [discriminate|]. destruct (own_port cfg part id) as [[]|]; try discriminate.
  destruct (pt_ready (ps_port s id)); [|discriminate]. destruct (pt_kind (ps_port s id) =? PK_SAMPLING); [|discriminate].
  destruct (pt_part (ps_port s id) =? part); [|discriminate]. cbn [negb] in H. injection H as <- <- <- <- <-.
  split; [reflexivity|]. split; [reflexivity|]. split; [reflexivity|]. split; [|intros D; exact D].
  destruct (Z.ltb_spec (u64 (pt_last (ps_port s id) + pt_refresh (ps_port s id))) now); cbn [negb]; split; intros; (discriminate || lia || reflexivity).
Qed.
Print Assumptions C89_status_partial.
Example C89_status_example : answer (get_sampling_port_status pdemo 5 1 77 3 (after (create_sampling_port pdemo 0 1 77 1 3 16 1 1000 ports_boot))) =
  (NO_ERROR, SStat 16 1 1000 1).
Proof. vm_compute. reflexivity. Qed.
(** For sources it is 2, which is no direction. *)
Theorem C89_status_refuted : ~ (forall cfg now part junk id s s' size dir refresh v d, pcfg_ok cfg -> 0 <= id < 256 ->
  get_sampling_port_status cfg now part junk id s = SRet s' NO_ERROR (SStat size dir refresh v) ->
  has_direction (ps_port s id) d -> dir = direction_number d).
Proof.
  intros H. set (s1 := after (create_sampling_port pdemo 0 0 77 1 2 16 0 1000 ports_boot)).
  assert (B : answer (get_sampling_port_status pdemo 5 0 77 2 s1) = (NO_ERROR, SStat 16 2 1000 1)) by (vm_compute; reflexivity).
  assert (D : has_direction (ps_port s1 2) Source) by (vm_compute; reflexivity).
  apply returned in B; [|discriminate]. pose proof (H pdemo 5 0 77 2 s1 _ 16 2 1000 1 Source pdemo_ok ltac:(lia) B D). discriminate.
Qed.
Print Assumptions C89_status_refuted.

(** What the kernel answers to a receiver is passed on, an empty queue as the standard says. *)
Theorem C89_empty : forall cfg now part id tmo ptr len s s' c o, 0 <= tmo -> receive_queuing_message cfg now part id tmo ptr len s = SRet s' c o ->
  c <> ERR_EMPTY /\ exists e o', port_call cfg now part (RReceive id tmo len ptr) s = PRet s' e o' /\
    (e = ERR_EMPTY -> c = NOT_AVAILABLE) /\ (e <> ERR_EMPTY -> c = e) /\ (forall d, o' = OData d -> o = SData d).
Proof.
  intros cfg now part id tmo ptr len s s' c o Ht H. unfold receive_queuing_message in H. destruct (Z.eqb_spec tmo (-1)); [lia|].
  replace (port_call cfg now part (RReceive (u8 id) tmo len ptr) s) with (port_call cfg now part (RReceive id tmo len ptr) s) in H
    by (cbn [port_call]; unfold u8; now rewrite Z.mod_mod by lia).
  destruct (port_call cfg now part (RReceive id tmo len ptr) s) as [s1 e o1|s1 w| |]; try discriminate.
  assert (X : s1 = s' /\ (if e =? ERR_EMPTY then NOT_AVAILABLE else e) = c /\ (forall d, o1 = OData d -> o = SData d)).
  { destruct o1; injection H as <- <- <-; split; try reflexivity; split; try reflexivity; intros d0 E; try discriminate; now injection E as ->. }
  destruct X as (-> & <- & D). split; [destruct (Z.eqb_spec e ERR_EMPTY); [discriminate|assumption]|].
  exists e, o1. split; [reflexivity|]. split; [intros ->; reflexivity|]. split; [|exact D].
  intros N. destruct (Z.eqb_spec e ERR_EMPTY); [contradiction|reflexivity].
Qed.
Print Assumptions C89_empty.
Example C89_empty_example : answer (receive_queuing_message pdemo 5 1 1 0 64 10 (after (create_queuing_port pdemo 0 1 77 1 16 4 1 0 ports_boot))) =
  (NOT_AVAILABLE, SData []).
Proof. vm_compute. reflexivity. Qed.

(** The other services pass numbers of the kernel on that are no return codes. *)
Theorem C89_code_refuted : ~ (forall cfg now part id ptr s s' c o, pcfg_ok cfg -> 0 <= part < q_nparts cfg ->
  read_sampling_message cfg now part id ptr s = SRet s' c o -> is_code c).
Proof.
  intros H. set (s1 := after (create_sampling_port pdemo 0 1 77 1 3 16 1 1000 ports_boot)).
  assert (B : answer (read_sampling_message pdemo 5 1 3 64 s1) = (ERR_EMPTY, SMsg [] 0)) by (vm_compute; reflexivity).
  apply returned in B; [|discriminate]. pose proof (H pdemo 5 1 3 64 s1 _ ERR_EMPTY _ pdemo_ok ltac:(cbn; lia) B) as C. unfold is_code, ERR_EMPTY in C. lia.
Qed.
Print Assumptions C89_code_refuted.

(** What is received depends on what LENGTH, a pure result, held before. *)
Theorem C89_length_refuted : ~ (forall cfg now part id tmo ptr l1 l2 s, pcfg_ok cfg -> 0 <= part < q_nparts cfg -> 0 <= l1 < 2 ^ 31 -> 0 <= l2 < 2 ^ 31 ->
  receive_queuing_message cfg now part id tmo ptr l1 s = receive_queuing_message cfg now part id tmo ptr l2 s).
Proof.
  intros H. set (s1 := after (create_queuing_port pdemo 0 1 77 1 16 4 1 0 ports_boot)).
  assert (A : answer (receive_queuing_message pdemo 5 1 1 0 64 10 s1) = (NOT_AVAILABLE, SData [])) by (vm_compute; reflexivity).
  assert (B : answer (receive_queuing_message pdemo 5 1 1 0 64 5000000 s1) = (ERR_EINVAL, SNone)) by (vm_compute; reflexivity).
  rewrite (H pdemo 5 1 1 0 64 10 5000000 s1 pdemo_ok) in A by (cbn; lia). rewrite A in B. discriminate.
Qed.
Print Assumptions C89_length_refuted.

(** GET_QUEUING_PORT_ID does not store the identifier in its variable, but where the variable happens to point. *)
Theorem C89_queuing_id_refuted : ~ (forall cfg part name m v m', pcfg_ok cfg -> 0 <= part < q_nparts cfg -> (forall a, 0 <= m a < 256) ->
  get_queuing_port_id cfg part name m v = (m', NO_ERROR) -> designates cfg part PK_QUEUEING name (m' v)).
Proof.
  intros H. destruct (H pdemo 0 0 (fun a => if a =? 100 then 200 else 0) 100 (upd (fun a => if a =? 100 then 200 else 0) 200 0) pdemo_ok) as [A _];
    [cbn; lia|intros a; destruct (a =? 100); lia|reflexivity|]. vm_compute in A. destruct A as [_ A]. discriminate.
Qed.
Print Assumptions C89_queuing_id_refuted.
(** It writes one byte there. *)
Theorem C89_queuing_id_stray : forall cfg part name m v m', get_queuing_port_id cfg part name m v = (m', NO_ERROR) ->
  forall a, a <> m v + 2 ^ 8 * m (v + 1) + 2 ^ 16 * m (v + 2) + 2 ^ 24 * m (v + 3) -> m' a = m a.
Proof.
  intros cfg part name m v m' H a Ha. unfold get_queuing_port_id in H. revert H Ha.
  generalize (m v + 2 ^ 8 * m (v + 1) + 2 ^ 16 * m (v + 2) + 2 ^ 24 * m (v + 3)) as x. intros x H Ha. cbv zeta in H.
  destruct (check_ptr _ _ _ _); [|discriminate]. destruct (port_id cfg part PK_QUEUEING name) as [e [id|]].
  - injection H as <- _. unfold upd. destruct (Z.eqb_spec a x); [contradiction|reflexivity].
  - injection H as <- _. reflexivity.
Qed.
Print Assumptions C89_queuing_id_stray.
Example C89_queuing_id_example : snd (get_queuing_port_id pdemo 0 0 (fun a => if a =? 100 then 200 else 0) 100) = NO_ERROR.
Proof. reflexivity. Qed.

(** GET_QUEUING_PORT_STATUS reports nothing of the port: its results are what the stack held. *)
Theorem C89_queuing_status_refuted : ~ (forall cfg now part id str junk s c nb size dir w, pcfg_ok cfg -> 0 <= part < q_nparts cfg ->
  get_queuing_port_status cfg part id str junk = (c, (nb, size, dir, w)) ->
  port_call cfg now part (RStatusQ id) s = PRet s ERR_OK (OStat (pt_size (ps_port s id)) (pt_dir (ps_port s id)) 0 false) -> size = pt_size (ps_port s id)).
Proof.
  intros H. set (s1 := after (create_queuing_port pdemo 0 0 77 0 16 4 0 0 ports_boot)).
  assert (S1 : pt_size (ps_port s1 0) = 64) by (vm_compute; reflexivity).
  assert (D1 : pt_dir (ps_port s1 0) = 2) by (vm_compute; reflexivity).
  assert (R1 : pt_ready (ps_port s1 0) = true /\ pt_kind (ps_port s1 0) = PK_QUEUEING /\ pt_part (ps_port s1 0) = 0) by (vm_compute; repeat split).
  clearbody s1. destruct R1 as (R1 & R2 & R3).
  pose proof (H pdemo 5 0 0 (fun _ => 99) (12345, 6, 7, 8) s1 _ _ _ _ _ pdemo_ok ltac:(cbn; lia) eq_refl) as E.
  rewrite S1, D1 in E. assert (F : 12345 = 64); [|discriminate]. apply E. cbn [port_call]. unfold queueing_status, owned.
  change (u8 0) with 0. change (q_nports pdemo) with 4. cbn. rewrite R1, R2, R3, S1, D1. reflexivity.
Qed.
Print Assumptions C89_queuing_status_refuted.

(** CREATE_BLACKBOARD does not give the identifier back. *)
Theorem C89_blackboard_refuted : ~ (forall core old, snd (create_blackboard NO_ERROR core old) = core).
Proof. intros H. specialize (H 1 0). discriminate. Qed.
Print Assumptions C89_blackboard_refuted.
