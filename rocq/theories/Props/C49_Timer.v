(** C49: the timer interrupt advances the tick counter by a fixed amount and calls the scheduler once in every quantum,
    every fixed number of interrupts and without drift.

    The tick counter counts nanoseconds. Against that counter the claim holds: the scheduler is called by exactly the
    interrupts that complete a quantum. But a quantum is not a whole number of interrupts, so that the calls are not
    evenly spaced, and the increment is rounded down, so that the counter falls behind the oscillator without bound. *)
From Verif Require Import Model.Base Model.Timer Proof.Tac Proof.TimerProof.

(** The constants that the board uses. *)
Definition board : pit_const := mkPit 11 9219 1000000.
Example C49_board : timer_init POK_TIMER_FREQUENCY POK_TIMER_QUANTUM = Some board.
Proof. vm_compute. reflexivity. Qed.

Lemma accepted_range : forall freq quant c, 0 < freq -> 0 < quant -> timer_init freq quant = Some c ->
  0 <= pit_increment c <= pit_quantum c /\ pit_quantum c < 2 ^ 31 /\ pit_quantum c = NS_ONE_SECOND / quant /\
  pit_divisor c = OSCILLATOR_RATE / freq /\ pit_increment c = pit_divisor c * NS_ONE_SECOND / OSCILLATOR_RATE.
Proof.
  intros freq quant c F Q H. unfold timer_init in H.
  destruct (_ || _); [discriminate|].
  destruct (_ && _) eqn:E; [|discriminate]. inversion H; subst; clear H. apply andb_true_iff in E as [E1 E2].
  cbn [pit_divisor pit_increment pit_quantum].
  apply Z.leb_le in E1, E2.
  assert (A1 : 0 <= OSCILLATOR_RATE / freq <= OSCILLATOR_RATE).
  { split; [apply Z.div_pos; unfold OSCILLATOR_RATE; lia|]. apply Z.div_le_upper_bound; unfold OSCILLATOR_RATE; nia. }
  assert (A2 : 0 <= NS_ONE_SECOND / quant <= NS_ONE_SECOND).
  { split; [apply Z.div_pos; unfold NS_ONE_SECOND; lia|]. apply Z.div_le_upper_bound; unfold NS_ONE_SECOND; nia. }
  revert A1 A2 E1 E2. generalize (OSCILLATOR_RATE / freq) (NS_ONE_SECOND / quant). intros d q A1 A2 E1 E2.
  unfold OSCILLATOR_RATE in A1. unfold NS_ONE_SECOND in A2.
  assert (D : u32 d = d) by (apply Z.mod_small; lia).
  assert (D2 : u32 q = q) by (apply Z.mod_small; lia).
  rewrite D, D2 in *.
  assert (A3 : 0 <= d * NS_ONE_SECOND / OSCILLATOR_RATE < 2 ^ 32).
  { unfold NS_ONE_SECOND, OSCILLATOR_RATE. split; [apply Z.div_pos; lia|]. apply Z.div_lt_upper_bound; lia. }
  assert (D3 : u32 (d * NS_ONE_SECOND / OSCILLATOR_RATE) = d * NS_ONE_SECOND / OSCILLATOR_RATE) by (apply Z.mod_small; lia).
  rewrite D3 in *. revert E2 A3. generalize (d * NS_ONE_SECOND / OSCILLATOR_RATE). intros; repeat split; lia.
Qed.

(** What holds, for every pair of frequencies that the initialisation accepts: after [n] interrupts the tick counter
    has advanced by [n] increments; as many quanta have been given as have passed on that counter; and interrupt [i]
    calls the scheduler exactly if it is the one that completes a quantum. *)
Theorem C49_quantum_partial : forall freq quant c n s l, 0 < freq -> 0 < quant <= NS_ONE_SECOND ->
  timer_init freq quant = Some c -> pit_run c n pit_start = (s, l) ->
  u64 (pit_ticks s) = u64 (Z.of_nat n * pit_increment c) /\
  nsched l = Z.of_nat n * pit_increment c / pit_quantum c /\
  (forall i, (i < n)%nat -> nth i l false = true <->
     exists k, Z.of_nat i * pit_increment c < k * pit_quantum c <= (Z.of_nat i + 1) * pit_increment c).
Proof.
  intros freq quant c n s l F Q T E.
  destruct (accepted_range freq quant c F ltac:(lia) T) as (I & R & V & _).
  assert (P : 0 < pit_quantum c) by (rewrite V; apply Z.div_str_pos; lia).
  assert (H0 : 0 <= pit_qc pit_start < pit_quantum c) by (cbn; lia).
  destruct (pit_run_spec c I P R n _ _ _ H0 E) as (A & B & C & D).
  cbn [pit_start pit_qc pit_ticks] in C, D. split; [exact D|split].
  - apply (Z.div_unique _ _ _ (pit_qc s)); lia.
  - intros i Hi.
    assert (S : forall m s0 s' l', pit_run c m s0 = (s', l') -> (i < m)%nat ->
              exists si li, pit_run c i s0 = (si, li) /\ nth i l' false = snd (pit_interrupt c si)).
    { clear. induction i as [|i IH]; intros m s0 s' l' E L; (destruct m as [|m]; [lia|]); cbn [pit_run] in E |- *;
        destruct (pit_interrupt c s0) as [s1 b] eqn:E1; destruct (pit_run c m s1) as [s2 bs] eqn:E2;
        inversion E; subst; clear E.
      - exists s0, []. split; [reflexivity|]. rewrite E1. reflexivity.
      - destruct (IH m s1 _ _ E2 ltac:(lia)) as (si & li & G1 & G2). rewrite G1. exists si, (b :: li). split; [reflexivity|].
        cbn [nth]. exact G2. }
    destruct (S n _ _ _ E Hi) as (si & li & G1 & G2). rewrite G2; clear S G2.
    destruct (pit_run_spec c I P R i _ _ _ H0 G1) as (A' & B' & C' & _). cbn [pit_start pit_qc] in C'.
    rewrite (pit_step c I P R si A'). cbn [snd].
    set (x := Z.of_nat i * pit_increment c) in *. set (q := pit_quantum c) in *.
    replace ((Z.of_nat i + 1) * pit_increment c) with (x + pit_increment c) by (unfold x; lia).
    assert (Y : pit_qc si = x - q * nsched li) by lia.
    rewrite Z.eqb_eq. split.
    + intros Hq. exists (nsched li + 1).
      pose proof (Z.div_mod (pit_qc si + pit_increment c) q ltac:(lia)) as DM. rewrite Hq in DM.
      pose proof (Z.mod_pos_bound (pit_qc si + pit_increment c) q ltac:(lia)). clear - DM H Y A'. nia.
    + intros (k & K1 & K2).
      assert (K : k = nsched li + 1).
      { assert (nsched li < k) by (clear - K1 Y A'; nia). assert (k < nsched li + 2) by (clear - K2 Y A' I P; nia). lia. }
      subst k. symmetry. apply (Z.div_unique _ _ _ (pit_qc si + pit_increment c - q)); [|lia].
      left. clear - K2 Y A' I P. nia.
Qed.
Print Assumptions C49_quantum_partial.

(** The first call comes after 109 interrupts, the next after 108 more. *)
Example C49_calls :
  let l := snd (pit_run board 220 pit_start) in nth 108 l false = true /\ nth 216 l false = true /\ nsched l = 2.
Proof. vm_compute. repeat split; reflexivity. Qed.

(** No number of interrupts is the distance of all calls. *)
Theorem C49_evenly_refuted : ~ exists m, 0 < m /\ forall n s l, pit_run board n pit_start = (s, l) ->
  forall i, (i < n)%nat -> nth i l false = true <-> (Z.of_nat i + 1) mod m = 0.
Proof.
  intros (m & M & H).
  assert (L : let l := snd (pit_run board 220 pit_start) in
              nth 108 l false = true /\ nth 216 l false = true /\ nth 0 l false = false)
    by (clear; vm_compute; repeat split; reflexivity).
  destruct (pit_run board 220 pit_start) as [s l] eqn:E. cbn [snd] in L. destruct L as (L1 & L2 & L0).
  specialize (H 220%nat s l E). clear E.
  apply (H 108%nat ltac:(lia)) in L1. apply (H 216%nat ltac:(lia)) in L2.
  change (Z.of_nat 108 + 1) with 109 in L1. change (Z.of_nat 216 + 1) with 217 in L2.
  apply Z.mod_divide in L1; [|lia]. apply Z.mod_divide in L2; [|lia].
  assert (D : (m | 1)).
  { assert (D1 : (m | 108)) by (replace 108 with (217 - 109) by lia; now apply Z.divide_sub_r).
    replace 1 with (109 - 108) by lia. now apply Z.divide_sub_r. }
  apply Z.divide_1_r_nonneg in D; [|lia]. subst m.
  rewrite (proj2 (H 0%nat ltac:(lia)) (Z.mod_1_r _)) in L0. discriminate L0.
Qed.
Print Assumptions C49_evenly_refuted.

(** The oscillator has made [n * 11] of its [OSCILLATOR_RATE] periods per second after [n] interrupts; the counter is
    behind that time by any number [b] of nanoseconds if one waits long enough: [n] can be chosen such that the
    counter itself has not wrapped around. *)
Theorem C49_no_drift_refuted : ~ exists b, 0 <= b < 2 ^ 46 /\ forall n s l, pit_run board n pit_start = (s, l) ->
  Z.of_nat n * pit_increment board < 2 ^ 64 ->
  Z.of_nat n * pit_divisor board * NS_ONE_SECOND <= (pit_ticks s + b) * OSCILLATOR_RATE.
Proof.
  intros (b & B & H). set (n := Z.to_nat (22 * b + 22)).
  destruct (pit_run board n pit_start) as [s l] eqn:E.
  assert (N : Z.of_nat n = 22 * b + 22) by (unfold n; lia).
  specialize (H n s l E). rewrite N in H. cbn [pit_increment pit_divisor board] in H.
  assert (T : pit_ticks s = (22 * b + 22) * 9219).
  { destruct (pit_run_spec board) with (n := n) (s := pit_start) (s' := s) (l := l) as (_ & _ & _ & D);
      try (cbn; lia); [exact E|].
    cbn [pit_ticks pit_start pit_increment board] in D. rewrite N in D.
    assert (R : 0 <= pit_ticks s < 2 ^ 64).
    { apply (pit_ticks_range board n pit_start s l); [cbn; lia|exact E]. }
    unfold u64 in D. rewrite (Z.mod_small (pit_ticks s)) in D by exact R. rewrite Z.mod_small in D by lia. lia. }
  rewrite T in H. specialize (H ltac:(lia)). unfold NS_ONE_SECOND, OSCILLATOR_RATE in H. lia.
Qed.
Print Assumptions C49_no_drift_refuted.

(** How far behind: less than 51 parts in ten million of the time that has passed. *)
Theorem C49_drift_partial : forall n s l, pit_run board n pit_start = (s, l) ->
  let true_time := Z.of_nat n * pit_divisor board * NS_ONE_SECOND in   (* in units of 1/OSCILLATOR_RATE ns *)
  let counted := Z.of_nat n * pit_increment board * OSCILLATOR_RATE in
  u64 (pit_ticks s) = u64 (Z.of_nat n * pit_increment board) /\
  0 <= true_time - counted /\ 10000000 * (true_time - counted) <= 51 * true_time.
Proof.
  intros n s l E. cbn zeta.
  destruct (pit_run_spec board) with (n := n) (s := pit_start) (s' := s) (l := l) as (_ & _ & _ & D);
      try (cbn; lia); [exact E|].
  cbn [pit_ticks pit_start pit_increment pit_divisor board] in *. split; [exact D|].
  unfold NS_ONE_SECOND, OSCILLATOR_RATE. lia.
Qed.
Print Assumptions C49_drift_partial.
