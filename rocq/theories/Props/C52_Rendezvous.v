(** C52: no processor leaves the scheduling rendezvous before every processor has entered it, and once all have entered
    all leave; for every number of processors that the 8-bit counter of processors can hold and every interleaving. *)
From Verif Require Import Model.Base Model.Smp Spec.SmpSpec Proof.Tac Proof.RendezvousProof.

Lemma run_from_start : forall n sched s ev, 1 <= n <= 255 -> valid_sched n sched -> rv_run n sched rv_start = Some (s, ev) ->
  rv_ok n s ev.
Proof.
  intros n sched s ev N V E. destruct (rv_run_ok n sched rv_start [] ltac:(lia) V (rv_start_ok n ltac:(lia))) as (s' & e & E' & K).
  rewrite E in E'. inversion E'; subst. exact K.
Qed.

(** No assertion fails. *)
Theorem C52_assertions : forall n sched, 1 <= n <= 255 -> valid_sched n sched -> rv_run n sched rv_start <> None.
Proof.
  intros n sched N V H. destruct (rv_run_ok n sched rv_start [] ltac:(lia) V (rv_start_ok n ltac:(lia))) as (s' & e & E' & K).
  rewrite H in E'. discriminate E'.
Qed.
Print Assumptions C52_assertions.

(** When a processor has left for the [k]-th time, everybody has entered for the [k]-th time. *)
Theorem C52_all_entered : forall n sched s ev p q, 1 <= n <= 255 -> valid_sched n sched ->
  rv_run n sched rv_start = Some (s, ev) -> 0 <= p < n -> 0 <= q < n -> leaves p ev <= entries q ev.
Proof.
  intros n sched s ev p q N V E Hp Hq. pose proof (run_from_start n sched s ev N V E) as K.
  pose proof (leaves_spread n s ev p K Hp).
  destruct (Z.eq_dec q 0) as [->|Nq].
  - rewrite (ro_src _ _ _ K). unfold b2. destruct (started _); lia.
  - rewrite (ro_entries _ _ _ K q ltac:(lia)). unfold b2. destruct (_ || _); lia.
Qed.
Print Assumptions C52_all_entered.

(** The address space is switched while everybody is inside, in the same round. *)
Theorem C52_switch : forall n sched s ev s' e q p, 1 <= n <= 255 -> valid_sched n sched ->
  rv_run n sched rv_start = Some (s, ev) -> 0 <= q < n -> rv_step n q s = Some (s', e) -> In Switch e -> 0 <= p < n ->
  entries p ev = leaves 0 ev + 1 /\ leaves p ev = leaves 0 ev.
Proof.
  intros n sched s ev s' e q p N V E Hq St I Hp. pose proof (run_from_start n sched s ev N V E) as K.
  assert (S0 : rv_at s 0 = RSwitch).
  { unfold rv_step in St. destruct (rv_at s q) eqn:A;
      repeat (match type of St with context [if ?c then _ else _] => destruct c end; try discriminate St);
      inversion St; subst; cbn [In] in I; try (exfalso; clear - I; intuition discriminate).
    destruct (Z.eq_dec q 0) as [->|]; [exact A|]. exfalso. pose proof (ro_other _ _ _ K q ltac:(lia)) as O. rewrite A in O.
    clear - O. destruct (rv_at s 0); cbn in O; intuition discriminate. }
  destruct (Z.eq_dec p 0) as [->|Np].
  - rewrite (ro_src _ _ _ K), S0. split; reflexivity.
  - rewrite (ro_entries _ _ _ K p ltac:(lia)), (ro_leaves _ _ _ K p ltac:(lia)), S0. cbn. lia.
Qed.
Print Assumptions C52_switch.

(** Everybody gets through: from whatever state has been reached, if everybody has its turn more than [27 n] times,
    in whatever order, then everybody has left once more. *)
Theorem C52_all_leave : forall n sched s ev blocks s' e p, 1 <= n <= 255 -> valid_sched n sched ->
  rv_run n sched rv_start = Some (s, ev) ->
  Forall (everybody n) blocks -> 27 * n < Z.of_nat (length blocks) ->
  rv_run n (concat blocks) s = Some (s', e) -> 0 <= p < n -> 1 <= leaves p e.
Proof.
  intros n sched s ev blocks s' e p N V E F L R Hp. pose proof (run_from_start n sched s ev N V E) as K.
  destruct (rounds_advance n blocks s ev s' e ltac:(lia) F K R) as [K' T].
  destruct (total_bounds n s ev ltac:(lia) K) as [B1 _]. destruct (total_bounds n s' _ ltac:(lia) K') as [_ B2].
  pose proof (leaves_spread n s ev p K Hp) as S1. pose proof (leaves_spread n s' _ p K' Hp) as S2.
  rewrite !leaves_app in *. destruct (Z.le_gt_cases 1 (leaves p e)) as [?|G]; [assumption|exfalso].
  assert (G0 : leaves 0 e <= 1).
  { unfold leaves in *. lia. }
  assert (Z0 : 0 <= leaves 0 e) by (unfold leaves; lia).
  assert (X : 7 * (leaves 0 ev + leaves 0 e) * (n - 1) <= 7 * (leaves 0 ev + 1) * (n - 1)).
  { apply Z.mul_le_mono_nonneg_r; lia. }
  lia.
Qed.
Print Assumptions C52_all_leave.

(** Three processors in lockstep: after 84 rounds everybody has been through the rendezvous, here five times. *)
Example C52_example :
  match rv_run 3 (concat (repeat [2; 0; 1] 84)) rv_start with
  | Some (s, ev) => leaves 0 ev = 5 /\ leaves 1 ev = 5 /\ leaves 2 ev = 5 /\ firstn 7 ev = [Enter 0; Enter 1; Enter 2; Switch; Leave 0; Leave 1; Leave 2]
  | None => False
  end /\ Forall (everybody 3) (repeat [2; 0; 1] 84).
Proof.
  split; [vm_compute; repeat split; reflexivity|].
  apply Forall_forall. intros b Hb. apply repeat_spec in Hb. subst b. split; [repeat constructor; lia|].
  intros p Hp. cbn [In]. lia.
Qed.
