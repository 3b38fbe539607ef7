(** The timer interrupt counts nanoseconds and calls the scheduler once in every quantum of them. *)
From Verif Require Import Model.Base Model.Timer Proof.Tac.

Definition nsched (l : list bool) : Z := Z.of_nat (count_occ bool_dec l true).

Lemma nsched_cons : forall b l, nsched (b :: l) = Z.b2z b + nsched l.
Proof. intros [|] l; unfold nsched; cbn [count_occ Z.b2z]; destruct (bool_dec _ _); try congruence; lia. Qed.

Section Pit.
Variable c : pit_const.
Hypothesis I : 0 <= pit_increment c <= pit_quantum c.
Hypothesis Q : 0 < pit_quantum c.
Hypothesis R : pit_quantum c < 2 ^ 31.

Lemma pit_step : forall s, 0 <= pit_qc s < pit_quantum c ->
  pit_interrupt c s =
    (mkPitState (u64 (pit_ticks s + pit_increment c)) ((pit_qc s + pit_increment c) mod pit_quantum c),
     Z.eqb ((pit_qc s + pit_increment c) / pit_quantum c) 1).
Proof.
  intros s H. unfold pit_interrupt. unfold u32.
  rewrite (Z.mod_small (pit_qc s + pit_increment c)) by lia.
  destruct (Z.leb_spec (pit_quantum c) (pit_qc s + pit_increment c)) as [L|L].
  - rewrite (Z.mod_small (_ - _)) by lia.
    assert (E : (pit_qc s + pit_increment c) / pit_quantum c = 1)
      by (symmetry; apply (Z.div_unique _ _ _ (pit_qc s + pit_increment c - pit_quantum c)); lia).
    assert (M : (pit_qc s + pit_increment c) mod pit_quantum c = pit_qc s + pit_increment c - pit_quantum c)
      by (symmetry; apply (Z.mod_unique _ _ 1); lia).
    rewrite E, M. reflexivity.
  - rewrite Z.div_small, Z.mod_small by lia. reflexivity.
Qed.

(** The sum of the counter and the quanta passed is the time that has passed. *)
Lemma pit_run_spec : forall n s s' l, 0 <= pit_qc s < pit_quantum c -> pit_run c n s = (s', l) ->
  0 <= pit_qc s' < pit_quantum c /\ length l = n /\
  pit_qc s' + pit_quantum c * nsched l = pit_qc s + Z.of_nat n * pit_increment c /\
  u64 (pit_ticks s') = u64 (pit_ticks s + Z.of_nat n * pit_increment c).
Proof.
  induction n as [|n IH]; intros s s' l H E; cbn [pit_run] in E.
  - inversion E; subst. rewrite !Z.mul_0_l, !Z.add_0_r. unfold nsched; cbn. repeat split; try lia.
  - destruct (pit_interrupt c s) as [s1 b] eqn:E1. destruct (pit_run c n s1) as [s2 bs] eqn:E2.
    inversion E; subst; clear E. rewrite (pit_step s H) in E1. inversion E1; subst; clear E1.
    apply IH in E2; cbn [pit_qc pit_ticks] in *; [|apply Z.mod_pos_bound; lia].
    destruct E2 as (A & B & C & D). rewrite nsched_cons. split; [exact A|split; [cbn; now rewrite B|split]].
    + assert (V : 0 <= (pit_qc s + pit_increment c) / pit_quantum c < 2).
      { split; [apply Z.div_pos; lia|apply Z.div_lt_upper_bound; lia]. }
      pose proof (Z.div_mod (pit_qc s + pit_increment c) (pit_quantum c) ltac:(lia)) as DM.
      assert (B2 : Z.b2z ((pit_qc s + pit_increment c) / pit_quantum c =? 1) = (pit_qc s + pit_increment c) / pit_quantum c).
      { destruct (Z.eqb_spec ((pit_qc s + pit_increment c) / pit_quantum c) 1) as [E|E]; cbn [Z.b2z]; lia. }
      rewrite B2. lia.
    + rewrite D. unfold u64. rewrite Zplus_mod_idemp_l. f_equal. lia.
Qed.
End Pit.

Lemma pit_ticks_range : forall c n s s' l, 0 <= pit_ticks s < 2 ^ 64 -> pit_run c n s = (s', l) -> 0 <= pit_ticks s' < 2 ^ 64.
Proof.
  induction n as [|n IH]; intros s s' l H E; cbn [pit_run] in E; [inversion E; subst; exact H|].
  destruct (pit_interrupt c s) as [s1 b] eqn:E1. destruct (pit_run c n s1) as [s2 bs] eqn:E2. inversion E; subst.
  apply (IH s1 s' bs); [|exact E2]. unfold pit_interrupt in E1.
  destruct (_ <=? _); inversion E1; subst; cbn [pit_ticks]; apply Z.mod_pos_bound; lia.
Qed.
