(** The generator modulo 2^32 runs through all numbers. *)
From Coq Require Import Permutation Lia.
From Verif Require Import Model.Base Proof.Tac Spec.RandSpec Model.Rand.

Definition g (x : Z) : Z := 1103515245 * x + 12345.

Fixpoint gs (n : nat) (x : Z) : Z := match n with O => x | S k => gs k (g x) end.

Lemma gs_add : forall n m x, gs (n + m) x = gs m (gs n x).
Proof. induction n as [|n IH]; intros m x; [reflexivity|]. cbn [Nat.add gs]. apply IH. Qed.

Lemma rand_state : forall x, fst (rand x) = g x mod 2 ^ 32.
Proof.
  intros x. unfold rand, g, u32. cbn [fst]. rewrite Zplus_mod_idemp_l. f_equal. lia.
Qed.

Lemma g_mod : forall x, g (x mod 2 ^ 32) mod 2 ^ 32 = g x mod 2 ^ 32.
Proof.
  intros x. unfold g. rewrite <- (Zplus_mod_idemp_l (1103515245 * (x mod _))), Zmult_mod_idemp_r, Zplus_mod_idemp_l. reflexivity.
Qed.

Lemma gs_mod : forall n x, gs n (x mod 2 ^ 32) mod 2 ^ 32 = gs n x mod 2 ^ 32.
Proof.
  assert (E : forall n x y, x mod 2 ^ 32 = y mod 2 ^ 32 -> gs n x mod 2 ^ 32 = gs n y mod 2 ^ 32).
  { induction n as [|n IH]; intros x y H; [exact H|]. cbn [gs]. apply IH.
    rewrite <- (g_mod x), <- (g_mod y), H. reflexivity. }
  intros n x. apply E. apply Z.mod_mod. discriminate.
Qed.

Lemma after_gs : forall n x, 0 <= x < 2 ^ 32 -> after rand n x = gs n x mod 2 ^ 32.
Proof.
  induction n as [|n IH]; intros x Hx.
  - cbn [after gs]. symmetry. apply Z.mod_small. exact Hx.
  - cbn [after gs]. rewrite rand_state, IH by (apply Z.mod_pos_bound; lia). apply gs_mod.
Qed.

(** 2^j steps are x |-> (1 + 2^(j+2) t) x + 2^j (2 o + 1). *)
Lemma gs_pow : forall j, exists t o, forall x,
  gs (2 ^ j) x = (1 + 2 ^ (Z.of_nat j + 2) * t) * x + 2 ^ Z.of_nat j * (2 * o + 1).
Proof.
  induction j as [|j (t & o & H)].
  - exists 275878811, 6172. intros x. change (2 ^ 0)%nat with 1%nat. cbn [gs]. unfold g.
    change (2 ^ (Z.of_nat 0 + 2)) with 4. change (2 ^ Z.of_nat 0) with 1. lia.
  - set (P := 2 ^ Z.of_nat j) in *.
    assert (EP2 : 2 ^ (Z.of_nat j + 2) = 4 * P) by (rewrite Z.pow_add_r by lia; change (2 ^ 2) with 4; subst P; lia).
    assert (EP : 2 ^ Z.of_nat (S j) = 2 * P) by (rewrite Nat2Z.inj_succ, Z.pow_succ_r by lia; reflexivity).
    assert (EP3 : 2 ^ (Z.of_nat (S j) + 2) = 8 * P) by (rewrite Z.pow_add_r by lia; rewrite EP; change (2 ^ 2) with 4; lia).
    rewrite EP2 in H. rewrite EP, EP3.
    exists (t + 2 * P * t * t), (o + 2 * P * t * o + P * t). intros x.
    replace (2 ^ S j)%nat with (2 ^ j + 2 ^ j)%nat by (cbn [Nat.pow]; lia).
    rewrite gs_add, !H. ring.
Qed.

(** 2^j m steps add 2^j m modulo 2^(j+1). *)
Lemma gs_mul : forall j m x, exists q, gs (2 ^ j * m) x = x + 2 ^ Z.of_nat j * (Z.of_nat m + 2 * q).
Proof.
  intros j m. destruct (gs_pow j) as (t & o & H).
  assert (EP2 : 2 ^ (Z.of_nat j + 2) = 4 * 2 ^ Z.of_nat j) by (rewrite Z.pow_add_r by lia; change (2 ^ 2) with 4; lia).
  rewrite EP2 in H. revert H. generalize (2 ^ Z.of_nat j). intros P H.
  induction m as [|m IH]; intros x.
  - exists 0. rewrite Nat.mul_0_r. cbn [gs]. change (Z.of_nat 0) with 0. ring.
  - replace (2 ^ j * S m)%nat with (2 ^ j + 2 ^ j * m)%nat by lia. rewrite gs_add.
    destruct (IH (gs (2 ^ j) x)) as (q & Hq). rewrite Hq, H.
    exists (q + o + 2 * t * x). rewrite Nat2Z.inj_succ. unfold Z.succ. ring.
Qed.

Lemma odd_part : forall d, (0 < d)%nat -> exists j m, d = (2 ^ j * (2 * m + 1))%nat.
Proof.
  intros d. induction d as [d IH] using lt_wf_ind. intros Hd.
  destruct (Nat.Even_or_Odd d) as [(k & Hk) | (k & Hk)].
  - destruct (IH k ltac:(lia) ltac:(lia)) as (j & m & E). exists (S j), m. rewrite Hk, E. cbn [Nat.pow]. lia.
  - exists 0%nat, k. cbn [Nat.pow]. lia.
Qed.

(** A return to the same number takes a multiple of 2^32 steps. *)
Lemma gs_return : forall d x, (gs d x - x) mod 2 ^ 32 = 0 -> Z.of_nat d mod 2 ^ 32 = 0.
Proof.
  intros d x H. destruct (Nat.eq_0_gt_0_cases d) as [-> | Hd]; [reflexivity|].
  destruct (odd_part d Hd) as (j & m & E).
  destruct (gs_mul j (2 * m + 1) x) as (q & Hq). rewrite <- E in Hq. rewrite Hq in H.
  replace (x + 2 ^ Z.of_nat j * (Z.of_nat (2 * m + 1) + 2 * q) - x) with (2 ^ Z.of_nat j * (2 * (Z.of_nat m + q) + 1)) in H by lia.
  apply Z.mod_divide in H; [|discriminate]. apply Z.mod_divide; [discriminate|].
  destruct (Z.le_gt_cases 32 (Z.of_nat j)) as [Hj | Hj].
  - rewrite E. rewrite Nat2Z.inj_mul, Nat2Z.inj_pow. change (Z.of_nat 2) with 2.
    apply Z.divide_mul_l. replace (Z.of_nat j) with (32 + (Z.of_nat j - 32)) by lia.
    rewrite Z.pow_add_r by lia. apply Z.divide_factor_l.
  - exfalso. destruct H as (z & Hz).
    replace 32 with (Z.of_nat j + (1 + (31 - Z.of_nat j))) in Hz by lia.
    rewrite !Z.pow_add_r in Hz by lia. change (2 ^ 1) with 2 in Hz.
    assert (Pp : 0 < 2 ^ Z.of_nat j) by (apply Z.pow_pos_nonneg; lia).
    revert Hz. generalize (2 ^ (31 - Z.of_nat j)). revert Pp. generalize (2 ^ Z.of_nat j).
    intros P Pp Q Hz.
    assert (Hz' : P * (2 * (Z.of_nat m + q) + 1) = P * (2 * (z * Q))) by (rewrite Hz; ring).
    apply Z.mul_reg_l in Hz'; [|lia]. clear - Hz'. generalize dependent (z * Q). intros w Hw. lia.
Qed.

(** 2^32 steps return; 2^31 steps add 2^31. *)
Lemma gs_full : forall k x, Z.of_nat k = 2 ^ 32 -> gs k x mod 2 ^ 32 = x mod 2 ^ 32.
Proof.
  intros k x Hk. assert (E : k = (2 ^ 32 * 1)%nat).
  { apply Nat2Z.inj. rewrite Nat.mul_1_r, Nat2Z.inj_pow. exact Hk. }
  rewrite E. destruct (gs_mul 32 1 x) as (q & ->). change (Z.of_nat 32) with 32.
  rewrite Z.mul_comm. apply Z.mod_add. discriminate.
Qed.

Lemma gs_half : forall k x, Z.of_nat k = 2 ^ 31 -> gs k x mod 2 ^ 32 = (x + 2 ^ 31) mod 2 ^ 32.
Proof.
  intros k x Hk. assert (E : k = (2 ^ 31 * 1)%nat).
  { apply Nat2Z.inj. rewrite Nat.mul_1_r, Nat2Z.inj_pow. exact Hk. }
  rewrite E. destruct (gs_mul 31 1 x) as (q & ->). change (Z.of_nat 31) with 31. change (Z.of_nat 1) with 1.
  replace (x + 2 ^ 31 * (1 + 2 * q)) with (x + 2 ^ 31 + q * 2 ^ 32) by lia. apply Z.mod_add. discriminate.
Qed.

Lemma after_inj : forall a b x, 0 <= x < 2 ^ 32 -> (a <= b)%nat -> after rand a x = after rand b x ->
  Z.of_nat (b - a) mod 2 ^ 32 = 0.
Proof.
  intros a b x Hx Hab H. rewrite !after_gs in H by exact Hx.
  replace b with (a + (b - a))%nat in H by lia. rewrite gs_add in H.
  apply (gs_return _ (gs a x)). rewrite Zminus_mod, <- H, Z.sub_diag. reflexivity.
Qed.

Lemma after_range : forall n x, 0 <= x < 2 ^ 32 -> 0 <= after rand n x < 2 ^ 32.
Proof. intros n x Hx. rewrite after_gs by exact Hx. apply Z.mod_pos_bound. lia. Qed.

(** The first 2^32 states are all numbers, each once. *)
Lemma all_states : forall k x, Z.of_nat k = 2 ^ 32 -> 0 <= x < 2 ^ 32 ->
  Permutation (map (fun n => after rand n x) (seq 0 k)) (map Z.of_nat (seq 0 k)).
Proof.
  intros k x Hk Hx.
  assert (N1 : NoDup (map (fun n => after rand n x) (seq 0 k))).
  { apply NoDup_nth with (d := after rand 0 x). rewrite map_length, seq_length. intros i j Hi Hj H.
    rewrite !(map_nth (fun n => after rand n x)) in H. rewrite !seq_nth in H by lia. cbn [Nat.add] in H.
    destruct (Nat.le_ge_cases i j) as [L | L].
    - pose proof (after_inj i j x Hx L H) as M. rewrite Z.mod_small in M by lia. lia.
    - pose proof (after_inj j i x Hx L (eq_sym H)) as M. rewrite Z.mod_small in M by lia. lia. }
  assert (N2 : NoDup (map Z.of_nat (seq 0 k))).
  { apply FinFun.Injective_map_NoDup; [intros a b; lia | apply seq_NoDup]. }
  assert (I : incl (map (fun n => after rand n x) (seq 0 k)) (map Z.of_nat (seq 0 k))).
  { intros y Hy. apply in_map_iff in Hy. destruct Hy as (n & <- & _). pose proof (after_range n x Hx) as R.
    apply in_map_iff. exists (Z.to_nat (after rand n x)). split; [lia|]. apply in_seq. lia. }
  apply NoDup_Permutation; [exact N1 | exact N2|]. intros y. split; [apply I|].
  apply (NoDup_length_incl N1); [|exact I]. rewrite !map_length. lia.
Qed.

Lemma filter_perm : forall (A : Type) (p : A -> bool) l l', Permutation l l' -> length (filter p l) = length (filter p l').
Proof.
  intros A p l l' H. induction H as [|a l l' _ IH|a b l|l m n _ IH1 _ IH2]; cbn [filter]; try reflexivity.
  - destruct (p a); cbn [length]; congruence.
  - destruct (p a), (p b); reflexivity.
  - congruence.
Qed.

Lemma filter_map_len : forall (A B : Type) (f : A -> B) (p : B -> bool) l,
  length (filter p (map f l)) = length (filter (fun a => p (f a)) l).
Proof. induction l as [|a l IH]; [reflexivity|]. cbn [map filter]. destruct (p (f a)); cbn [length]; congruence. Qed.

Lemma count_mod : forall r k, 0 <= r <= 256 ->
  Z.of_nat (length (filter (fun y => y mod 257 =? r) (map Z.of_nat (seq 0 k)))) = (Z.of_nat k + 256 - r) / 257.
Proof.
  intros r k Hr. induction k as [|k IH].
  - cbn [seq map filter length]. change (Z.of_nat 0) with 0. lia.
  - rewrite seq_S, map_app, filter_app, app_length, Nat2Z.inj_add, IH. cbn [map filter Nat.add].
    destruct (Z.eqb_spec (Z.of_nat k mod 257) r); cbn [length]; clear IH; lia.
Qed.
