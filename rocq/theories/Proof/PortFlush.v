(** Output ports that hold bytes are marked to be flushed, and a flush empties them. *)
From Verif Require Import Model.Base Model.Port Spec.PortSpec Spec.ChanSpec Proof.Tac Proof.PortRing Proof.PortInv Proof.PortWait Proof.PortChan.

Definition marked (p : port) : Prop := pt_dir p = DIR_OUT -> pt_kind p = PK_QUEUEING -> pt_empty p = false -> pt_flush p = true.
Definition all_marked (s : pstate) : Prop := forall id, marked (ps_port s id).

Ltac quiet := match goal with |- match (if ?b then _ else _) with _ => _ end => destruct b eqn:? end.
(** The calls of a port leave it marked. *)
Definition marks (id : Z) (r : pres) : Prop := match r with PRet s' _ _ | PWait s' _ => marked (ps_port s' id) | _ => True end.
Lemma marked_free id v s : marked (ps_port s id) -> marked (ps_port (on_port id (set_pt_free v) s) id).
Proof. cbn [ps_port on_port]. rewrite upd_same. auto. Qed.
Lemma marked_flush id s : marked (ps_port (on_port id (set_pt_flush true) s) id).
Proof. cbn [ps_port on_port]. rewrite upd_same. intros _ _ _. reflexivity. Qed.
Lemma send_loop_marks now part id data len tmo s : marked (ps_port s id) -> marks id (send_loop now part id data len tmo s).
Proof.
  intros M. unfold marks, send_loop. quiet; [quiet; apply marked_free; exact M|]. destruct (write_port _ _ _ _ _) as [[s1 e]|]; [|exact Logic.I].
  apply marked_free, marked_flush.
Qed.
(** Input ports are not concerned. *)
Lemma marked_in p q : pt_dir p = DIR_IN -> same_id p q -> marked q.
Proof. intros D (_ & _ & _ & E & _) X. rewrite <- E, D in X. discriminate. Qed.
Lemma effect_marks cfg P W s s' id : pinv cfg s -> effect P W s s' -> pt_dir (ps_port s id) <> DIR_OUT -> marked (ps_port s' id).
Proof. intros I (_ & X & _) D E. destruct (X id) as [(_ & _ & _ & Q & _) _]. congruence. Qed.
Lemma resume_marks now w s : marked (ps_port s (wid w)) -> pt_dir (ps_port s (wid w)) = DIR_OUT \/ pt_dir (ps_port s (wid w)) = DIR_IN ->
  match w with WSend _ _ _ _ _ _ => True | _ => False end -> marks (wid w) (resume_call now w s).
Proof.
  intros M _ H. destruct w as [part id data len tmo dl|]; [|contradiction]. cbn [wid] in *. unfold marks. cbn [resume_call]. unfold lock_port.
  quiet; [apply marked_free; exact M|]. quiet; [|exact Logic.I]. quiet; [apply marked_free, marked_free; exact M|].
  apply (send_loop_marks now part id data len tmo). apply marked_free. exact M.
Qed.
Lemma call_marks cfg now part r s id : pt_dir (ps_port s id) = DIR_OUT -> rid r = Some id -> marked (ps_port s id) -> marks id (port_call cfg now part r s).
Proof.
  intros D Rd M. unfold marks.
  destruct r; cbn [rid] in Rd; try discriminate; injection Rd as Rd; cbn [port_call]; rewrite Rd.
  - quiet; [|exact M]. unfold sampling_write, owned. quiet; [exact M|]. destruct (own_port _ _ _) as [[]|]; auto. quiet; [exact M|]. quiet; [exact M|]. quiet; [exact M|]. cbv zeta.
    unfold lock_port. quiet; [|quiet; [|exact Logic.I]]; (destruct (write_port _ _ _ _ _) as [[s1 e]|]; [apply marked_flush|exact Logic.I]).
  - unfold sampling_read, owned. quiet; [exact M|]. destruct (own_port _ _ _) as [[]|]; auto. rewrite D. change (negb (DIR_OUT =? DIR_IN)) with true. cbn iota. quiet; [exact M|]. quiet; exact M.
  - unfold sampling_status, owned. quiet; [exact M|]. destruct (own_port _ _ _) as [[]|]; auto. repeat (quiet; [exact M|]). exact M.
  - quiet; [|exact M]. unfold queueing_send, owned. quiet; [exact M|]. quiet; [exact M|]. destruct (own_port _ _ _) as [[]|]; auto. do 5 (quiet; [exact M|]).
    unfold lock_port. quiet; [exact M|]. quiet; [|exact Logic.I]. apply (send_loop_marks now part). apply marked_free. exact M.
  - quiet; [|exact M]. unfold queueing_receive, owned. quiet; [exact M|]. quiet; [exact M|]. destruct (own_port _ _ _) as [[]|]; auto.
    rewrite D. change (negb (DIR_OUT =? DIR_IN)) with true. cbn iota. quiet; [exact M|]. quiet; exact M.
  - unfold queueing_status, owned. quiet; [exact M|]. destruct (own_port _ _ _) as [[]|]; auto. repeat (quiet; [exact M|]). exact M.
  - unfold virtual_nb_destinations, virtual. quiet; [exact M|]. destruct (own_port _ _ _) as [[]|]; auto. quiet; exact M.
  - unfold virtual_destination, virtual. quiet; [exact M|]. destruct (own_port _ _ _) as [[]|]; auto. quiet; [exact M|]. quiet; [exact M|]. quiet; auto.
  - unfold virtual_get_global, virtual. quiet; [exact M|]. destruct (own_port _ _ _) as [[]|]; auto. quiet; exact M.
Qed.

(** A flush empties the queueing port it is for and leaves the other output ports alone. *)
Lemma flush_port_out cfg now l s s' id : pinv cfg s -> flush_port cfg now l s = Some s' -> pt_ready (ps_port s id) = true -> pt_dir (ps_port s id) = DIR_OUT -> pt_kind (ps_port s id) = PK_QUEUEING ->
  marked (ps_port s id) -> (id <> l -> still s s' id) /\ (id = l -> pt_empty (ps_port s' id) = true).
Proof.
  intros I F R D K M. split.
  - intros N. pose proof (flush_port_effect cfg now l s s' (pi_shape _ _ I) F) as E.
    apply (effect_still cfg _ _ _ _ _ I E R); [intros (_ & [X|[_ X]]); [auto|rewrite D in X; discriminate]|intros (_ & _ & X); rewrite D in X; discriminate].
  - intros <-. revert F. unfold flush_port. rewrite D. change (negb (DIR_OUT =? DIR_OUT)) with false. cbn iota.
    destruct (pt_empty (ps_port s id)) eqn:Em; [intros [= <-]; exact Em|]. rewrite (M D K Em). cbn [negb]. cbv zeta.
    assert (Rg : ring_ok (ps_port s id)) by (destruct (shape_holds _ (pi_shape _ _ I id) K) as [Rg|E]; [exact Rg|congruence]).
    assert (Sz : pt_size (ps_port s id) < 2^32).
    { destruct (pi_ready _ _ I _ R) as (_ & _ & _ & _ & _ & X & _). unfold PORT_MAX_SIZE in X. lia. }
    rewrite consumed_pending by auto. pose proof (pending_pos _ Rg Em) as Hp. set (n := pending (ps_port s id)) in *.
    destruct (get_spec (ps_pool s) (ps_port s id) n K Rg ltac:(lia)) as (p' & G & C1 & Pd & R' & (b' & e' & em & fu & Pe)). rewrite G.
    change (negb (ERR_OK =? ERR_OK)) with false. cbn iota. set (s1 := on_port id (fun _ => p') s).
    assert (E1 : effect (fun i => i = id) (fun _ => False) s s1).
    { eapply (effect_get id n s p' ERR_OK _ (fun _ => False) (pi_shape _ _ I id)); [lia|exact G]. }
    pose proof (effect_inv cfg _ _ _ _ I E1) as I1.
    assert (S1 : ps_port s1 id = p') by (unfold s1; cbn [ps_port on_port]; apply upd_same).
    destruct (deliver _ _ _ _ _ _ _ s1) as [s2|] eqn:Dl; [|discriminate]. intros [= <-].
    assert (T : still s1 s2 id).
    { eapply (deliver_out cfg now id _ n s1 s2 id I1); [lia| | |exact Dl]; rewrite S1, Pe; assumption. }
    cbn [ps_port on_port]. rewrite upd_same. cbn [set_pt_flush pt_empty]. destruct T as [-> _]. rewrite S1.
    destruct (pt_empty p') eqn:Ee; [reflexivity|]. pose proof (pending_pos _ R' Ee). lia.
Qed.

Lemma flush_port_marks cfg now l s s' : pinv cfg s -> all_marked s -> flush_port cfg now l s = Some s' -> all_marked s'.
Proof.
  intros I M F id D K Em. pose proof (flush_port_effect cfg now l s s' (pi_shape _ _ I) F) as E. pose proof E as (_ & X & _).
  destruct (X id) as [(_ & _ & _ & X1 & X2 & X3 & _) _].
  destruct (pt_ready (ps_port s id)) eqn:R.
  2: { destruct (pi_idle _ _ I id R) as (_ & X4 & _). rewrite <- X1, X4 in D. discriminate. }
  destruct (flush_port_out cfg now l s s' id I F R ltac:(congruence) ltac:(congruence) (M id)) as [A B].
  destruct (Z.eq_dec id l) as [El|El]; [rewrite (B El) in Em; discriminate|]. destruct (A El) as [Q _]. rewrite Q in *. apply (M id); auto.
Qed.
Lemma flush_loop_marks cfg now part n : forall i s s', pinv cfg s -> all_marked s -> flush_loop n cfg now part i s = Some s' -> pinv cfg s' /\ all_marked s'.
Proof.
  induction n as [|n IH]; intros i s s' I M; cbn [flush_loop]; [intros [= <-]; auto|].
  destruct (flush_port cfg now (q_by cfg part i) s) as [s1|] eqn:F; [|discriminate]. apply IH; [|eapply flush_port_marks; eauto].
  eapply effect_inv; [exact I|]. eapply flush_port_effect; [apply (pi_shape _ _ I)|exact F].
Qed.
Lemma flush_parts_marks cfg active now n : forall p s s', pinv cfg s -> all_marked s -> flush_parts n cfg active now p s = Some s' -> all_marked s'.
Proof.
  induction n as [|n IH]; intros p s s' I M; cbn [flush_parts]; [intros [= <-]; auto|].
  destruct (active p); [|apply IH; auto]. destruct (flush_partition cfg now p s) as [s1|] eqn:F; [|discriminate].
  destruct (flush_loop_marks _ _ _ _ _ _ _ I M F) as [I1 M1]. apply IH; auto.
Qed.

Lemma step_marks cfg s ws l s' ws' ev : pcfg_ok cfg -> pinv cfg s -> waits_ok ws -> Forall (wait_ok cfg s) ws -> pstep cfg (s, ws) l = Some ((s', ws'), ev) ->
  all_marked s -> all_marked s'.
Proof.
  intros C I Wo Wk S M id D K Em. assert (Hn : 0 <= q_nports cfg) by (destruct C as [X _]; lia).
  pose proof (step_inv cfg _ _ _ _ _ _ Hn I Wo S) as [I' _].
  destruct l as [part now r|k now|part now|active now]; cbn [pstep] in S.
  - assert (Cs : s' = s \/ ((exists e o, port_call cfg now part r s = PRet s' e o) \/ (exists w, port_call cfg now part r s = PWait s' w))).
    { destruct (port_call cfg now part r s) as [s1 e o|s1 w| |]; try discriminate; injection S as <- _ _; [right; left; eauto|right; right; eauto|auto]. }
    destruct Cs as [-> |Cs]; [apply M; auto|]. destruct (pt_ready (ps_port s id)) eqn:R.
    + pose proof (call_keeps cfg now part r s s' Hn I Cs id R) as (_ & _ & _ & X1 & _ & X3 & _).
      destruct (rid r) as [j|] eqn:Rd; [destruct (Z.eq_dec j id) as [->|Nj]|].
      * pose proof (call_marks cfg now part r s id ltac:(congruence) Rd (M id)) as Y. unfold marks in Y.
        destruct Cs as [(e & o & E)|(w & E)]; rewrite E in Y; apply Y; auto.
      * destruct (call_still cfg now part r s s' id Hn I R ltac:(congruence) Cs) as [Q _]. rewrite Q in *. apply M; auto.
      * destruct (call_still cfg now part r s s' id Hn I R ltac:(congruence) Cs) as [Q _]. rewrite Q in *. apply M; auto.
    + exfalso. destruct (pi_idle _ _ I id R) as (_ & X4 & _ & X5). destruct (rid r) as [j|] eqn:Rd.
      * pose proof (eff_call cfg now part r j s (pi_shape _ _ I) Rd) as E.
        assert (Q : exists P W, effect P W s s') by (destruct Cs as [(e & o & Z1)|(w & Z1)]; rewrite Z1 in E; eauto).
        destruct Q as (P & W & _ & X & _). destruct (X id) as [(_ & _ & _ & X1 & _) _]. rewrite <- X1, X4 in D. discriminate.
      * (* creation: the port is empty *)
        assert (Em' : pt_empty (ps_port s' id) = true).
        { destruct r; cbn [rid port_call] in *; try discriminate.
          - unfold sampling_create in Cs. destruct (port_create cfg part name (u32 size) (u8 dir) PK_SAMPLING s) as [[s1 e1] o1] eqn:Cr.
            assert (Z1 : pt_empty (ps_port s1 id) = true).
            { destruct (create_cases _ _ _ _ _ _ _ _ _ _ Hn Cr) as [[-> _]|(i & _ & _ & _ & _ & _ & _ & _ & _ & _ & _ & _ & _ & Ot & Ps)]; [exact X5|].
              destruct (Z.eq_dec id i) as [->|Ni]; [rewrite Ps; exact X5|rewrite Ot by exact Ni; exact X5]. }
            destruct o1 as [i|]; [destruct (e1 =? ERR_OK)|]; (destruct Cs as [(e & o & H)|(w & H)]; [|discriminate]); injection H as <- _ _; auto.
            cbn [ps_port on_port]. unfold upd. destruct (id =? i) eqn:E; [|exact Z1]. replace i with id by lia. exact Z1.
          - unfold queueing_create in Cs. destruct (negb fifo); [destruct Cs as [(e & o & [= <- _ _])|(w & H)]; [exact X5|discriminate]|].
            destruct (port_create cfg part name (u32 size) (u8 dir) PK_QUEUEING s) as [[s1 e1] o1] eqn:Cr.
            assert (Z1 : pt_empty (ps_port s1 id) = true).
            { destruct (create_cases _ _ _ _ _ _ _ _ _ _ Hn Cr) as [[-> _]|(i & _ & _ & _ & _ & _ & _ & _ & _ & _ & _ & _ & _ & Ot & Ps)]; [exact X5|].
              destruct (Z.eq_dec id i) as [->|Ni]; [rewrite Ps; exact X5|rewrite Ot by exact Ni; exact X5]. }
            destruct o1 as [i|]; [destruct (e1 =? ERR_OK)|]; (destruct Cs as [(e & o & H)|(w & H)]; [|discriminate]); injection H as <- _ _; auto.
            cbn [ps_port on_port]. unfold upd. destruct (id =? i) eqn:E; [|exact Z1]. replace i with id by lia. exact Z1.
          - unfold virtual_node in Cs. destruct (_ <=? _); destruct Cs as [(e & o & H)|(w & H)]; try discriminate. injection H as <- _ _. exact X5. }
        congruence.
  - destruct (nth_error ws k) as [w|] eqn:N; [|injection S as <- <- <-; apply M; auto].
    assert (Hw : 0 <= wlen w) by (apply nth_error_In in N; unfold waits_ok in Wo; rewrite Forall_forall in Wo; auto).
    assert (Kw : wait_ok cfg s w) by (apply nth_error_In in N; rewrite Forall_forall in Wk; auto).
    pose proof (eff_resume s (pi_shape _ _ I) now w Hw) as E.
    assert (Fin : forall P W, effect P W s s' -> (forall i, P i -> i = wid w) -> (id = wid w -> match w with WSend _ _ _ _ _ _ => True | _ => False end -> marked (ps_port s' id)) -> pt_flush (ps_port s' id) = true).
    { intros P W Ef HP Hm. destruct (Z.eq_dec id (wid w)) as [Ei|Ei].
      - destruct w as [p0 i0 d0 l0 t0 dl0|p0 i0 l0 t0 dl0].
        + apply Hm; auto.
        + destruct Kw as (_ & _ & _ & _ & Dr & _). cbn [wid] in Ei. subst i0. destruct Ef as (_ & X & _). destruct (X id) as [(_ & _ & _ & X1 & _) _]. rewrite <- X1, Dr in D. discriminate.
      - destruct Ef as (_ & _ & Fr & _). assert (Q : ps_port s' id = ps_port s id) by (apply Fr; intros HQ; apply Ei, HP, HQ). rewrite Q in *. apply M; auto. }
    assert (Mk : match w with WSend _ _ _ _ _ _ => True | _ => False end -> marks (wid w) (resume_call now w s)).
    { intros Hw'. destruct w as [p0 i0 d0 l0 t0 dl0|]; [|contradiction]. destruct Kw as (_ & _ & _ & _ & Dr & _). apply resume_marks; cbn [wid]; auto. }
    destruct (resume_call now w s) as [s1 e o|s1 w1| |] eqn:P; try discriminate; injection S as <- <- <-.
    + apply (Fin _ _ E); [auto|]. intros ->. exact Mk.
    + apply (Fin _ _ E); [auto|]. intros ->. exact Mk.
    + apply M; auto.
  - destruct (flush_partition cfg now part s) as [s1|] eqn:F; [|discriminate]. injection S as <- <- <-.
    destruct (flush_loop_marks _ _ _ _ _ _ _ I M F) as [_ M1]. apply M1; auto.
  - destruct (flush_all cfg active now s) as [s1|] eqn:F; [|discriminate]. injection S as <- <- <-.
    apply (flush_parts_marks _ _ _ _ _ _ _ I M F); auto.
Qed.
Lemma preach_marks cfg m : pcfg_ok cfg -> preachable cfg m -> all_marked (fst m).
Proof.
  intros C. induction 1 as [|[s ws] l [s' ws'] ev R IH L S]; [intros id D; discriminate|].
  destruct (preach_inv cfg _ C R) as [I W]. pose proof (preach_waits cfg _ C R) as Wk. eapply step_marks; eauto.
Qed.

(** Flushing the owner of the source of a queueing channel with room at the destination moves all its bytes. *)
Section Transfer.
Variable cfg : pconfig.
Hypothesis C : pcfg_ok cfg.
Variables src dst : Z.
Hypothesis Ch : channel cfg src dst.
Lemma flush_loop_empties now part n : forall i s s', 0 <= part < q_nparts cfg -> pinv cfg s -> all_marked s -> opened PK_QUEUEING s src dst ->
  flush_loop n cfg now part i s = Some s' -> (exists k, i <= k < i + Z.of_nat n /\ q_by cfg part k = src) \/ pt_empty (ps_port s src) = true -> pt_empty (ps_port s' src) = true.
Proof.
  induction n as [|n IH]; intros i s s' Hp I M Op; cbn [flush_loop]; [intros [= <-] [(k & K & _)|E]; [lia|exact E]|].
  destruct (flush_port cfg now (q_by cfg part i) s) as [s1|] eqn:F; [|discriminate]. intros H Ex.
  pose proof (flush_port_effect cfg now _ s s1 (pi_shape _ _ I) F) as E. pose proof (effect_inv cfg _ _ _ _ I E) as I1.
  pose proof Op as (R1 & K1 & D1 & _). destruct (flush_port_out cfg now _ s s1 src I F R1 D1 K1 (M src)) as [A B].
  eapply (IH (i + 1) s1); [exact Hp|exact I1|exact (flush_port_marks cfg now _ s s1 I M F)|eapply opened_keeps; [eapply effect_keeps; eauto|exact Op]|exact H|].
  destruct (Z.eq_dec src (q_by cfg part i)) as [Es|Es]; [right; auto|]. destruct (A Es) as [Q _].
  destruct Ex as [(k & K & Ek)|Ex]; [|right; rewrite Q; exact Ex]. left. exists k. split; [|exact Ek]. destruct (Z.eq_dec k i) as [->|]; [congruence|lia].
Qed.
Lemma transfer now s s' : pinv cfg s -> all_marked s -> opened PK_QUEUEING s src dst -> room_to_flush src dst s ->
  (exists i, 0 <= i < q_nby cfg (q_owner cfg src) /\ q_by cfg (q_owner cfg src) i = src) ->
  flush_partition cfg now (q_owner cfg src) s = Some s' -> held s' dst = held s dst ++ held s src /\ held s' src = [].
Proof.
  intros I M Op Rm (k & K & Ek) F. assert (Hp : 0 <= q_owner cfg src < q_nparts cfg) by (apply (pc_owner _ C), (ch_src _ _ _ Ch)).
  destruct (flush_partition_chan cfg C src dst Ch now (q_owner cfg src) s s' Hp I Op (fun _ => Rm) F) as (X & _).
  assert (E : pt_empty (ps_port s' src) = true) by (eapply flush_loop_empties; [exact Hp|exact I|exact M|exact Op|exact F|left; exists k; split; [lia|exact Ek]]).
  assert (N : held s' src = []) by (unfold held, content, pending; rewrite E; reflexivity). rewrite N, app_nil_r in X. auto.
Qed.
End Transfer.
