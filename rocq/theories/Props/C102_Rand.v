(** C102: rand of libpok's C library. *)
From Coq Require Import Permutation.
From Verif Require Import Model.Base Proof.Tac Spec.RandSpec Model.Rand Proof.RandProof.

Definition full : nat := Z.to_nat (2 ^ 32).
Lemma full_Z : Z.of_nat full = 2 ^ 32.
Proof. unfold full. apply Z2Nat.id. lia. Qed.
Global Opaque full.

Lemma gs_many : forall f k z, Z.of_nat f = 2 ^ 32 -> gs (k * f) z mod 2 ^ 32 = z mod 2 ^ 32.
Proof.
  intros f k z K. revert z. induction k as [|k IH]; intros z; [reflexivity|]. cbn [Nat.mul].
  rewrite gs_add, IH. apply gs_full. exact K.
Qed.

Lemma returned_mod : forall n x, 0 <= x < 2 ^ 32 -> returned rand n x = gs (S n) x mod 2 ^ 32 mod 257.
Proof.
  intros n x Hx. unfold returned. assert (E : forall y, snd (rand y) = s32 (fst (rand y) mod 257)) by reflexivity.
  rewrite E, rand_state, after_gs by exact Hx. rewrite g_mod.
  assert (F : g (gs n x) = gs (S n) x).
  { replace (S n) with (n + 1)%nat by lia. rewrite gs_add. reflexivity. }
  rewrite F. generalize (gs (S n) x mod 2 ^ 32). intros y. pose proof (Z.mod_pos_bound y 257 ltac:(lia)) as R.
  unfold s32, sgn. rewrite (Z.mod_small (y mod 257)) by lia.
  destruct (Z.ltb_spec (y mod 257) (2 ^ (32 - 1))) as [_|B]; [reflexivity|]. exfalso. revert B. change (2 ^ (32 - 1)) with 2147483648. lia.
Qed.

(** Every result is between 0 and RAND_MAX, from every state. *)
Theorem C102_range : forall n x, 0 <= x < 2 ^ 32 -> 0 <= returned rand n x <= RAND_MAX.
Proof.
  intros n x Hx. rewrite returned_mod by exact Hx. pose proof (Z.mod_pos_bound (gs (S n) x mod 2 ^ 32) 257 ltac:(lia)).
  unfold RAND_MAX. lia.
Qed.
Print Assumptions C102_range.

(** The hidden number goes through all 2^32 numbers, each once, and then starts again, from every number. *)
Theorem C102_states : forall x, 0 <= x < 2 ^ 32 ->
  (forall y, 0 <= y < 2 ^ 32 -> exists n, (n < full)%nat /\ after rand n x = y) /\
  (forall m n, (m < full)%nat -> (n < full)%nat -> after rand m x = after rand n x -> m = n) /\
  (forall n, after rand (n + full) x = after rand n x).
Proof.
  intros x Hx. pose proof full_Z as K. revert K. generalize full. intros full K. pose proof (all_states full x K Hx) as P. split; [|split].
  - intros y Hy. assert (I : In y (map (fun n => after rand n x) (seq 0 full))).
    { apply (Permutation_in _ (Permutation_sym P)). apply in_map_iff. exists (Z.to_nat y). split; [lia|]. apply in_seq. lia. }
    apply in_map_iff in I. destruct I as (n & E & I). apply in_seq in I. exists n. split; [lia | exact E].
  - intros m n Hm Hn H. destruct (Nat.le_ge_cases m n) as [L | L].
    + pose proof (after_inj m n x Hx L H) as M. rewrite Z.mod_small in M by lia. lia.
    + pose proof (after_inj n m x Hx L (eq_sym H)) as M. rewrite Z.mod_small in M by lia. lia.
  - intros n. rewrite !after_gs by exact Hx. rewrite gs_add. apply gs_full. exact K.
Qed.
Print Assumptions C102_states.

(** In 2^32 calls, from every state, every result occurs 16711935 times, and 0 once more. *)
Theorem C102_even : forall x r, 0 <= x < 2 ^ 32 -> 0 <= r <= RAND_MAX ->
  times rand full x r = if r =? 0 then 16711936 else 16711935.
Proof.
  intros x r Hx Hr. unfold RAND_MAX in Hr. pose proof full_Z as K. revert K. generalize full. intros full K. unfold times.
  assert (R1 : 0 <= g x mod 2 ^ 32 < 2 ^ 32) by (apply Z.mod_pos_bound; lia).
  assert (E : length (filter (fun n => returned rand n x =? r) (seq 0 full)) =
              length (filter (fun y => y mod 257 =? r) (map (fun n => after rand n (g x mod 2 ^ 32)) (seq 0 full)))).
  { rewrite filter_map_len. f_equal. apply filter_ext. intros n. rewrite returned_mod by exact Hx.
    rewrite after_gs by exact R1. rewrite gs_mod. reflexivity. }
  rewrite E, (filter_perm _ _ _ _ (all_states full _ K R1)), count_mod, K by exact Hr.
  change (2 ^ 32) with 4294967296. destruct (Z.eqb_spec r 0); lia.
Qed.
Print Assumptions C102_even.

(** Half a period later every result is another one: the numbers differ by 2^31, no multiple of 257. *)
Theorem C102_half : forall x n h, 0 <= x < 2 ^ 32 -> Z.of_nat h mod 2 ^ 32 = 2 ^ 31 -> returned rand (n + h) x <> returned rand n x.
Proof.
  intros x n h Hx Hh. rewrite !returned_mod by exact Hx. pose proof full_Z as K. revert K. generalize full. intros full K.
  replace (S (n + h)) with (S n + h)%nat by lia. rewrite gs_add. set (y := gs (S n) x).
  assert (E : gs h y mod 2 ^ 32 = (y + 2 ^ 31) mod 2 ^ 32).
  { assert (Eh : exists h', h = (Z.to_nat (Z.of_nat h / 2 ^ 32) * full + h')%nat /\ Z.of_nat h' = 2 ^ 31).
    { pose proof (Z.div_mod (Z.of_nat h) (2 ^ 32) ltac:(lia)) as D. rewrite Hh in D.
      assert (Q : 0 <= Z.of_nat h / 2 ^ 32) by (apply Z.div_pos; lia).
      revert D Q. generalize (Z.of_nat h / 2 ^ 32). intros q D Q.
      assert (T : Z.of_nat (Z.to_nat q * full) = 2 ^ 32 * q) by (rewrite Nat2Z.inj_mul, Z2Nat.id, K by exact Q; apply Z.mul_comm).
      exists (h - Z.to_nat q * full)%nat. revert T. generalize (Z.to_nat q * full)%nat. intros w T.
      change (2 ^ 32) with 4294967296 in *. change (2 ^ 31) with 2147483648 in *. clear - T D. lia. }
    destruct Eh as (h' & -> & Eh). rewrite Nat.add_comm, gs_add, gs_many by exact K. apply gs_half. exact Eh. }
  rewrite E. clear - y. clearbody y. change (2 ^ 32) with 4294967296. change (2 ^ 31) with 2147483648. lia.
Qed.
Print Assumptions C102_half.

(** So the results repeat after 2^32 calls and no earlier: their periods are the multiples of 2^32. *)
Theorem C102_period : forall x p, 0 <= x < 2 ^ 32 -> (period rand x p <-> Z.of_nat p mod 2 ^ 32 = 0).
Proof.
  intros x p Hx. split.
  - intros H. destruct (Nat.eq_0_gt_0_cases p) as [-> | Hp]; [reflexivity|].
    destruct (odd_part p Hp) as (j & m & E).
    destruct (Z.le_gt_cases 32 (Z.of_nat j)) as [Hj | Hj].
    + apply Z.mod_divide; [discriminate|]. rewrite E, Nat2Z.inj_mul, Nat2Z.inj_pow. change (Z.of_nat 2) with 2.
      apply Z.divide_mul_l. replace (Z.of_nat j) with (32 + (Z.of_nat j - 32)) by lia.
      rewrite Z.pow_add_r by lia. apply Z.divide_factor_l.
    + exfalso. assert (Ec : exists c, c = (2 ^ (31 - j))%nat) by (eexists; reflexivity). destruct Ec as (c & Ec).
      assert (M : forall k n, returned rand (n + k * p) x = returned rand n x).
      { induction k as [|k IH]; intros n; [rewrite Nat.add_0_r; reflexivity|].
        replace (n + S k * p)%nat with ((n + k * p) + p)%nat by lia. rewrite H. apply IH. }
      apply (C102_half x 0 (c * p) Hx); [|apply M].
      assert (C : Z.of_nat (c * p) = 2 ^ 31 + Z.of_nat m * 2 ^ 32).
      { rewrite E, Ec. rewrite !Nat2Z.inj_mul, !Nat2Z.inj_pow. change (Z.of_nat 2) with 2.
        rewrite Z.mul_assoc, <- Z.pow_add_r by lia. replace (Z.of_nat (31 - j) + Z.of_nat j) with 31 by lia.
        change (2 ^ 32) with (2 * 2 ^ 31). lia. }
      rewrite C, Z.mod_add by discriminate. reflexivity.
  - intros H n. rewrite !returned_mod by exact Hx. replace (S (n + p)) with (S n + p)%nat by lia. rewrite gs_add.
    revert H. pose proof full_Z as K. revert K. generalize full. intros full K H.
    apply Z.mod_divide in H; [|discriminate]. destruct H as (k & Hk).
    assert (E : p = (Z.to_nat k * full)%nat).
    { apply Nat2Z.inj. rewrite Nat2Z.inj_mul, Z2Nat.id, K by lia. exact Hk. }
    rewrite E, gs_many by exact K. reflexivity.
Qed.
Print Assumptions C102_period.

(** RAND_MAX is below what the standard asks for. *)
Theorem C102_max_refuted : RAND_MAX < least_max /\ forall n x, 0 <= x < 2 ^ 32 -> returned rand n x < least_max.
Proof.
  split; [reflexivity|]. intros n x Hx. pose proof (C102_range n x Hx). unfold least_max. unfold RAND_MAX in *. lia.
Qed.
Print Assumptions C102_max_refuted.

Section Examples.
Example first : map (fun n => returned rand n next0) (seq 0 6) = [173; 31; 10; 74; 167; 117].
Proof. vm_compute. reflexivity. Qed.
Example start : 0 <= next0 < 2 ^ 32.
Proof. unfold next0. lia. Qed.
Example zeroes : times rand 40 next0 0 = 0.
Proof. vm_compute. reflexivity. Qed.
Example half : Z.of_nat (Z.to_nat (2 ^ 31)) mod 2 ^ 32 = 2 ^ 31.
Proof. rewrite Z2Nat.id by lia. reflexivity. Qed.
End Examples.
