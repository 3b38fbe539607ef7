(** A small configuration of ports, for examples and counterexamples: two partitions of 4096 bytes. Partition 0 owns the
    queueing port 0 and the sampling port 2; partition 1 owns the queueing port 1 and the sampling port 3. Port 0 feeds
    port 1, port 2 feeds port 3. The name of a port is its number. *)
From Verif Require Import Model.Base Model.Port Spec.PortSpec Proof.Tac.

Definition pdemo : pconfig := {|
  q_nports := 4; q_nparts := 2; q_owner := fun id => id mod 2; q_name := fun id => id;
  q_kind := fun id => if id <? 2 then PK_QUEUEING else PK_SAMPLING;
  q_ndest := fun l => if l mod 2 =? 0 then 1 else 0; q_dest := fun l _ => l + 1; q_local := fun g => g;
  q_nby := fun _ => 2; q_by := fun part i => part + 2 * i; q_psize := fun _ => 4096;
  q_nglobal := 4; q_global := fun id => id; q_node := fun _ => 0 |}.
Lemma pdemo_ok : pcfg_ok pdemo.
Proof. split; cbn [pdemo q_nports q_nparts q_owner q_nby q_by q_ndest q_dest q_local]; intros; try lia. destruct (l mod 2 =? 0) eqn:E; lia. Qed.

(** Executions from boot whose steps are all possible. *)
Definition plabel_okb (cfg : pconfig) (l : plabel) : bool :=
  match l with
  | PCall part now _ => (0 <=? part) && (part <? q_nparts cfg) && (0 <=? now) && (now <? 2^64)
  | PResume _ now => (0 <=? now) && (now <? 2^64)
  | PFlushPart part now => (0 <=? part) && (part <? q_nparts cfg) && (0 <=? now) && (now <? 2^64)
  | PFlushAll _ now => (0 <=? now) && (now <? 2^64)
  end.
Definition pdemo_run (ls : list plabel) : option (pmach * list pevent) :=
  if forallb (plabel_okb pdemo) ls then prun pdemo (ports_boot, []) ls else None.
Lemma plabel_okb_ok cfg l : plabel_okb cfg l = true -> plabel_ok cfg l.
Proof. destruct l; cbn [plabel_okb plabel_ok]; lia. Qed.
Lemma prun_reachable cfg ls : forall m m' ev, forallb (plabel_okb cfg) ls = true -> preachable cfg m -> prun cfg m ls = Some (m', ev) -> preachable cfg m'.
Proof.
  induction ls as [|l ls IH]; intros m m' ev H R; cbn [prun forallb] in *; [intros [= <- _]; exact R|].
  apply andb_true_iff in H. destruct H as [H1 H2]. destruct (pstep cfg m l) as [[m1 e1]|] eqn:S; [|discriminate].
  destruct (prun cfg m1 ls) as [[m2 e2]|] eqn:P; [|discriminate]. intros [= <- _]. eapply IH; [exact H2| |exact P].
  eapply pr_step; [exact R|apply plabel_okb_ok; exact H1|exact S].
Qed.
Lemma pdemo_reachable ls m ev : pdemo_run ls = Some (m, ev) -> preachable pdemo m.
Proof.
  unfold pdemo_run. destruct (forallb (plabel_okb pdemo) ls) eqn:F; [|discriminate]. intros H.
  eapply prun_reachable; [exact F|apply pr_boot|exact H].
Qed.
(** User memory holding [v], [v+1], ... *)
Definition from_val (v : Z) : Z -> Z := fun i => v + i.
Definition p_q (size : Z) : list plabel := [PCall 0 0 (RCreateQ 0 size DIR_OUT true); PCall 1 0 (RCreateQ 1 size DIR_IN true)].
Definition p_s (size refresh : Z) : list plabel := [PCall 0 0 (RCreateS 2 size DIR_OUT refresh); PCall 1 0 (RCreateS 3 size DIR_IN refresh)].
Definition p_send (now v n : Z) : plabel := PCall 0 now (RSend 0 (from_val v) n 64 0).
Definition p_recv (now n : Z) : plabel := PCall 1 now (RReceive 1 0 n 64).
Definition p_write (now v n : Z) : plabel := PCall 0 now (RWrite 2 (from_val v) n 64).
Definition p_read (now : Z) : plabel := PCall 1 now (RRead 3 64).
