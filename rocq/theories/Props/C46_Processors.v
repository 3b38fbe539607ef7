(** C46: numbering the processors of a partition from zero is a bijection between the numbers below the size of the
    partition's processor set and that set; both translations follow it, for every 64-bit mask. *)
From Coq Require Import FinFun.
From Verif Require Import Model.Base Model.State Model.Sched Model.Kernel Proof.Tac.

(** The processors in a mask, in increasing order. *)
Definition members (mask : Z) : list Z := filter (Z.testbit mask) (map Z.of_nat (seq 0 64)).

(** Number [l] of the partition is processor [r] of the machine. *)
Definition numbered (mask l r : Z) : Prop := 0 <= l /\ nth_error (members mask) (Z.to_nat l) = Some r.

Definition from (mask : Z) (a k : nat) : list Z := filter (Z.testbit mask) (map Z.of_nat (seq a k)).

Lemma real_loop : forall mask l k a c, 0 <= c <= l + 1 ->
  real_id_loop (S k) mask l (Z.of_nat a) c =
  (if c <=? l then nth_error (from mask a k) (Z.to_nat (l - c)) else Some (Z.of_nat a - 1)).
Proof.
  intros mask l. induction k as [|k IH]; intros a c H.
  - cbn [real_id_loop]. destruct (c <=? l); [|reflexivity]. unfold from; cbn. now destruct (Z.to_nat (l - c)).
  - change (real_id_loop (S (S k)) mask l (Z.of_nat a) c) with
      (if c <=? l then real_id_loop (S k) mask l (Z.of_nat a + 1) (c + Z.b2z (Z.testbit mask (Z.of_nat a))) else Some (Z.of_nat a - 1)).
    destruct (Z.leb_spec c l) as [L|L]; [|reflexivity].
    replace (Z.of_nat a + 1) with (Z.of_nat (S a)) by lia.
    rewrite IH by (destruct (Z.testbit _ _); cbn; lia).
    unfold from. cbn [seq map filter]. destruct (Z.testbit mask (Z.of_nat a)); cbn [Z.b2z].
    + destruct (Z.leb_spec (c + 1) l) as [L2|L2].
      * replace (Z.to_nat (l - c)) with (S (Z.to_nat (l - (c + 1)))) by lia. reflexivity.
      * replace (Z.to_nat (l - c)) with O by lia. cbn [nth_error]. f_equal. lia.
    + rewrite Z.add_0_r. destruct (Z.leb_spec c l); [reflexivity|lia].
Qed.

Lemma part_loop : forall mask k a c,
  partition_id_loop k mask (Z.of_nat a) c = c + Z.of_nat (length (from mask a k)).
Proof.
  intros mask. induction k as [|k IH]; intros a c; [cbn; lia|].
  cbn [partition_id_loop]. replace (Z.of_nat a + 1) with (Z.of_nat (S a)) by lia. rewrite IH.
  unfold from. cbn [seq map filter]. destruct (Z.testbit mask (Z.of_nat a)); cbn [Z.b2z length]; lia.
Qed.

Lemma part_loop0 : forall mask k, partition_id_loop k mask 0 0 = Z.of_nat (length (from mask 0 k)).
Proof. intros. exact (part_loop mask k 0 0). Qed.

Lemma from_app : forall mask a j k, from mask a (j + k) = from mask a j ++ from mask (a + j) k.
Proof. intros. unfold from. now rewrite seq_app, map_app, filter_app. Qed.

Lemma from_lt : forall mask a k x, In x (from mask a k) -> Z.of_nat a <= x < Z.of_nat (a + k) /\ Z.testbit mask x = true.
Proof.
  intros mask a k x H. apply filter_In in H as [H T]. apply in_map_iff in H as (n & <- & H). apply in_seq in H. split; [lia|exact T].
Qed.

Lemma members_from : forall mask, members mask = from mask 0 64.
Proof. intros. unfold members, from. reflexivity. Qed.

Lemma position : forall mask r, 0 <= r < 64 -> Z.testbit mask r = true ->
  nth_error (members mask) (length (from mask 0 (Z.to_nat r))) = Some r.
Proof.
  intros mask r H T. rewrite members_from.
  replace 64%nat with (Z.to_nat r + (1 + (63 - Z.to_nat r)))%nat by lia.
  rewrite (from_app mask 0 (Z.to_nat r)), from_app.
  rewrite nth_error_app2 by lia. rewrite Nat.sub_diag.
  replace (from mask (0 + Z.to_nat r) 1) with [r]; [reflexivity|].
  unfold from. cbn [seq map filter]. replace (Z.of_nat (0 + Z.to_nat r)) with r by lia. now rewrite T.
Qed.

Lemma members_nodup : forall mask, NoDup (members mask).
Proof.
  intros. unfold members. apply NoDup_filter, FinFun.Injective_map_NoDup; [intros a b; lia|apply seq_NoDup].
Qed.

(** Each translation computes the numbering, in its direction. Where it is not defined the code runs into its
    assertion (or, beyond 63, into an undefined shift). *)
Theorem C46_real : forall mask l r, 0 <= mask < 2 ^ 64 -> 0 <= l < 256 ->
  get_proc_real_id mask l = Some r <-> numbered mask l r.
Proof.
  intros mask l r M L. unfold get_proc_real_id, numbered. change 0 with (Z.of_nat 0) at 1.
  rewrite real_loop by lia. destruct (Z.leb_spec 0 l); [|lia]. rewrite Z.sub_0_r, members_from.
  split; [intros E; split; [lia|exact E]|intros [_ E]; exact E].
Qed.
Print Assumptions C46_real.

Theorem C46_local : forall mask l r, 0 <= mask < 2 ^ 64 -> 0 <= r < 256 ->
  get_proc_partition_id mask r = Some l <-> numbered mask l r.
Proof.
  intros mask l r M R. unfold get_proc_partition_id, numbered. split.
  - destruct (Z.testbit mask r) eqn:T; [|discriminate]. intros E. inversion E; subst l; clear E.
    rewrite part_loop0.
    assert (r < 64).
    { destruct (Z.lt_ge_cases r 64) as [?|G]; [assumption|]. exfalso.
      destruct (Z.eq_dec mask 0) as [->|N]; [now rewrite Z.bits_0 in T|].
      rewrite Z.bits_above_log2 in T; [discriminate|lia|].
      assert (Z.log2 mask < 64) by (apply Z.log2_lt_pow2; lia). lia. }
    split; [lia|]. rewrite Nat2Z.id. apply position; [lia|exact T].
  - intros [L E]. pose proof (nth_error_In _ _ E) as I. rewrite members_from in I. apply from_lt in I as [I T].
    rewrite T. f_equal. rewrite part_loop0.
    pose proof (position mask r ltac:(lia) T) as P. rewrite <- E in P.
    assert (N : length (from mask 0 (Z.to_nat r)) = Z.to_nat l); [|lia].
    { apply (proj1 (NoDup_nth_error (members mask)) (members_nodup mask)); [|exact P].
      apply nth_error_Some. rewrite P, E. discriminate. }
Qed.
Print Assumptions C46_local.

(** Hence the round trips; and every processor of the set, and no other, has a number. *)
Theorem C46_bijection : forall mask, 0 <= mask < 2 ^ 64 ->
  (forall l, 0 <= l < 256 -> match get_proc_real_id mask l with
     | Some r => 0 <= r < 64 /\ Z.testbit mask r = true /\ get_proc_partition_id mask r = Some l
     | None => Z.of_nat (length (members mask)) <= l
     end) /\
  (forall r, 0 <= r < 256 -> match get_proc_partition_id mask r with
     | Some l => 0 <= l < 64 /\ get_proc_real_id mask l = Some r
     | None => Z.testbit mask r = false
     end).
Proof.
  intros mask M. split.
  - intros l L. destruct (get_proc_real_id mask l) as [r|] eqn:E.
    + apply (C46_real mask l r M L) in E. pose proof (nth_error_In _ _ (proj2 E)) as I.
      rewrite members_from in I. apply from_lt in I as [I T]. split; [lia|]. split; [exact T|]. apply C46_local; [exact M|lia|exact E].
    + destruct (nth_error (members mask) (Z.to_nat l)) as [r|] eqn:N.
      * assert (X : get_proc_real_id mask l = Some r) by (apply C46_real; [assumption..|split; [lia|exact N]]).
        rewrite E in X. discriminate X.
      * apply nth_error_None in N. lia.
  - intros r R. destruct (get_proc_partition_id mask r) as [l|] eqn:E.
    + apply (C46_local mask l r M R) in E. destruct E as [L E].
      assert (Z.to_nat l < length (members mask))%nat by (apply nth_error_Some; rewrite E; discriminate).
      assert (length (members mask) <= 64)%nat.
      { unfold members. rewrite <- (seq_length 64 0) at 2. rewrite <- (map_length Z.of_nat (seq 0 64)).
        generalize (map Z.of_nat (seq 0 64)). induction l0 as [|x t IH]; cbn; [lia|]. destruct (Z.testbit _ _); cbn; lia. }
      split; [lia|]. apply C46_real; [exact M|lia|]. split; [exact L|exact E].
    + unfold get_proc_partition_id in E. destruct (Z.testbit mask r); [discriminate|reflexivity].
Qed.
Print Assumptions C46_bijection.

Example C46_example : members 0xD2 = [1; 4; 6; 7] /\ get_proc_real_id 0xD2 2 = Some 6 /\ get_proc_partition_id 0xD2 6 = Some 2 /\
  get_proc_real_id 0xD2 4 = None.
Proof. vm_compute. repeat split; reflexivity. Qed.
