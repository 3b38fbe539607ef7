(** Numerals, and the functions that produce and read them. *)
From Verif Require Import Model.Base Model.Libc Spec.LibcSpec Proof.Tac Proof.MemFnProof.

(** * Numerals are unique *)

Lemma fold_value : forall base ds a, fold_left (fun a d => base * a + d) ds a = a * base ^ Z.of_nat (length ds) + value base ds.
Proof.
  intros base. unfold value. induction ds as [|d ds IH]; intros a; cbn [fold_left length]; [change (Z.of_nat 0) with 0; lia|].
  rewrite IH. rewrite (IH (base * 0 + d)). rewrite Nat2Z.inj_succ, Z.pow_succ_r by lia. ring.
Qed.

Lemma value_cons : forall base d ds, value base (d :: ds) = d * base ^ Z.of_nat (length ds) + value base ds.
Proof.
  intros base d ds. unfold value at 1. cbn [fold_left]. rewrite fold_value. ring.
Qed.

Lemma value_bound : forall base ds, 2 <= base -> Forall (fun d => 0 <= d < base) ds -> 0 <= value base ds < base ^ Z.of_nat (length ds).
Proof.
  intros base ds Hb H. induction H as [|d ds Hd H IH]; [cbn; unfold value; cbn; lia|].
  rewrite value_cons. cbn [length]. rewrite Nat2Z.inj_succ, Z.pow_succ_r by lia.
  assert (0 < base ^ Z.of_nat (length ds)) by (apply Z.pow_pos_nonneg; lia).
  set (P := base ^ Z.of_nat (length ds)) in *. set (V := value base ds) in *. split.
  - assert (0 <= d * P) by (apply Z.mul_nonneg_nonneg; lia). lia.
  - assert ((d + 1) * P <= base * P) by (apply Z.mul_le_mono_nonneg_r; lia).
    replace ((d + 1) * P) with (d * P + P) in * by ring. lia.
Qed.

Lemma value_inj : forall base, 2 <= base -> forall a b, length a = length b -> Forall (fun d => 0 <= d < base) a ->
  Forall (fun d => 0 <= d < base) b -> value base a = value base b -> a = b.
Proof.
  intros base Hb. induction a as [|x a IH]; intros [|y b] L Ha Hb' E; try discriminate; [reflexivity|].
  inversion Ha as [|? ? Hx Ha']; inversion Hb' as [|? ? Hy Hb'']; subst. injection L as L.
  rewrite !value_cons, L in E.
  pose proof (value_bound base a Hb Ha') as Ba. pose proof (value_bound base b Hb Hb'') as Bb. rewrite L in Ba.
  set (P := base ^ Z.of_nat (length b)) in *.
  assert (x = y).
  { destruct (Z.lt_trichotomy x y) as [C|[C|C]]; [exfalso|assumption|exfalso].
    - assert ((x + 1) * P <= y * P) by (apply Z.mul_le_mono_nonneg_r; lia). replace ((x + 1) * P) with (x * P + P) in * by ring. lia.
    - assert ((y + 1) * P <= x * P) by (apply Z.mul_le_mono_nonneg_r; lia). replace ((y + 1) * P) with (y * P + P) in * by ring. lia. }
  subst y. f_equal. apply IH; auto. lia.
Qed.

Lemma value_lead : forall base d ds, 2 <= base -> Forall (fun d => 0 <= d < base) (d :: ds) -> d <> 0 ->
  base ^ Z.of_nat (length ds) <= value base (d :: ds).
Proof.
  intros base d ds Hb H N. inversion H as [|? ? Hd H']; subst. rewrite value_cons.
  pose proof (value_bound base ds Hb H'). assert (0 < base ^ Z.of_nat (length ds)) by (apply Z.pow_pos_nonneg; lia).
  assert (1 * base ^ Z.of_nat (length ds) <= d * base ^ Z.of_nat (length ds)) by (apply Z.mul_le_mono_nonneg_r; lia). lia.
Qed.

Lemma digits_unique : forall base a b, 2 <= base -> Forall (fun d => 0 <= d < base) a -> Forall (fun d => 0 <= d < base) b ->
  (a = [0] \/ exists d t, a = d :: t /\ d <> 0) -> (b = [0] \/ exists d t, b = d :: t /\ d <> 0) ->
  value base a = value base b -> a = b.
Proof.
  intros base a b Hb Ha Hb' Ca Cb E.
  assert (Zero : value base [0] = 0) by (unfold value; cbn; lia).
  destruct Ca as [->|(d & t & -> & Nd)], Cb as [->|(e & u & -> & Ne)]; [reflexivity| | |].
  - exfalso. pose proof (value_lead base e u Hb Hb' Ne). assert (0 < base ^ Z.of_nat (length u)) by (apply Z.pow_pos_nonneg; lia). lia.
  - exfalso. pose proof (value_lead base d t Hb Ha Nd). assert (0 < base ^ Z.of_nat (length t)) by (apply Z.pow_pos_nonneg; lia). lia.
  - apply (value_inj base Hb); auto.
    pose proof (value_lead base d t Hb Ha Nd) as L1. pose proof (value_lead base e u Hb Hb' Ne) as L2.
    pose proof (value_bound base _ Hb Ha) as B1. pose proof (value_bound base _ Hb Hb') as B2. cbn [length] in *.
    rewrite Nat2Z.inj_succ in B1, B2.
    destruct (Nat.lt_trichotomy (length t) (length u)) as [C|[C|C]]; [exfalso|lia|exfalso].
    + assert (base ^ Z.succ (Z.of_nat (length t)) <= base ^ Z.of_nat (length u)) by (apply Z.pow_le_mono_r; lia). lia.
    + assert (base ^ Z.succ (Z.of_nat (length u)) <= base ^ Z.of_nat (length t)) by (apply Z.pow_le_mono_r; lia). lia.
Qed.

Lemma chars_unique : forall l1 l2 ds, Forall2 digit_is l1 ds -> Forall2 digit_is l2 ds -> l1 = l2.
Proof.
  intros l1 l2 ds H. revert l2. induction H as [|c d l1 ds Hc H IH]; intros l2 H2; inversion H2 as [|c' ? l2' ? Hc' H2']; subst; [reflexivity|].
  f_equal; [unfold digit_is in *; lia|]. now apply IH.
Qed.

Lemma numeral_unique : forall base n l1 l2, 2 <= base -> numeral base n l1 -> numeral base n l2 -> l1 = l2.
Proof.
  intros base n l1 l2 Hb (a & A1 & A2 & A3 & A4) (b & B1 & B2 & B3 & B4).
  assert (a = b) by (apply (digits_unique base); auto; lia). subst b. now apply (chars_unique _ _ a).
Qed.

(** * Digits, least significant first *)

Definition digits_of (base n : Z) (ds : list Z) : Prop :=
  Forall (fun d => 0 <= d < base) ds /\ value base (rev ds) = n /\ exists t d, ds = t ++ [d] /\ d <> 0.

Lemma value_snoc : forall base l d, value base (l ++ [d]) = base * value base l + d.
Proof. intros base l d. unfold value. rewrite fold_left_app. reflexivity. Qed.

Lemma digits_step : forall base n ds, 2 <= base -> 0 <= n -> digits_of base (n / base) ds -> digits_of base n (n mod base :: ds).
Proof.
  intros base n ds Hb Hn (H1 & H2 & t & d & -> & H3). split; [constructor; [apply Z.mod_pos_bound; lia|assumption]|]. split.
  - cbn [rev]. rewrite value_snoc, H2. rewrite (Z.div_mod n base) at 3 by lia. lia.
  - exists (n mod base :: t), d. auto.
Qed.

Lemma digits_last : forall base n, 2 <= base -> 0 < n < base -> digits_of base n [n].
Proof.
  intros base n Hb Hn. split; [repeat constructor; lia|]. split; [unfold value; cbn; lia|]. exists [], n. split; [reflexivity|lia].
Qed.

Lemma pow_pos_nat : forall b k, 2 <= b -> b ^ Z.of_nat (S k) = b * b ^ Z.of_nat k /\ 0 < b ^ Z.of_nat k.
Proof.
  intros b k Hb. rewrite Nat2Z.inj_succ, Z.pow_succ_r by lia. split; [reflexivity|]. apply Z.pow_pos_nonneg; lia.
Qed.

Lemma div_small_step : forall base n, 2 <= base -> 0 <= n -> n / base = 0 -> n < base.
Proof. intros base n Hb Hn H. apply Z.div_small_iff in H; lia. Qed.

Lemma conv_spec : forall fuel base n, 2 <= base -> 0 < n < base ^ Z.of_nat fuel ->
  exists ds, conv fuel n base = Some ds /\ digits_of base n ds /\ (0 < length ds <= fuel)%nat.
Proof.
  induction fuel as [|f IH]; intros base n Hb Hn; [change (base ^ Z.of_nat 0) with 1 in Hn; lia|].
  cbn [conv]. destruct (Z.eqb_spec n 0); [lia|]. destruct (pow_pos_nat base f Hb) as (P1 & P2). rewrite P1 in Hn.
  assert (Q : 0 <= n / base) by (apply Z.div_pos; lia).
  destruct (Z.eq_dec (n / base) 0) as [E|E].
  - rewrite E. apply div_small_step in E; try lia.
    assert (C : conv f 0 base = Some []) by (destruct f; reflexivity). rewrite C. rewrite Z.mod_small by lia.
    exists [n]. split; [reflexivity|]. split; [apply digits_last; lia|cbn; lia].
  - destruct (IH base (n / base) Hb) as (ds & D1 & D2 & D3).
    { split; [lia|]. apply Z.div_lt_upper_bound; lia. }
    rewrite D1. exists (n mod base :: ds). split; [reflexivity|]. split; [apply digits_step; auto; lia|cbn; lia].
Qed.

Lemma digit_char_is : forall d, 0 <= d < 16 -> digit_is (digit_char d) d.
Proof.
  intros d H.
  assert (C : d = 0 \/ d = 1 \/ d = 2 \/ d = 3 \/ d = 4 \/ d = 5 \/ d = 6 \/ d = 7 \/ d = 8 \/ d = 9 \/ d = 10 \/ d = 11 \/ d = 12 \/ d = 13 \/ d = 14 \/ d = 15) by lia.
  unfold digit_is.
  repeat (destruct C as [->|C]; [first [left; split; [lia|reflexivity]|right; split; [lia|reflexivity]]|]).
  subst d. right. split; [lia|reflexivity].
Qed.

Lemma chars_of_digits : forall (f : Z -> Z) base ds, base <= 16 -> (forall d, 0 <= d < base -> digit_is (f d) d) ->
  Forall (fun d => 0 <= d < base) ds -> Forall2 digit_is (map f ds) ds.
Proof. intros f base ds Hb Hf H. induction H; cbn; constructor; auto. Qed.

Lemma digits_numeral : forall (f : Z -> Z) base n ds, base <= 16 -> (forall d, 0 <= d < base -> digit_is (f d) d) ->
  digits_of base n ds -> numeral base n (map f (rev ds)).
Proof.
  intros f base n ds Hb Hf (H1 & H2 & t & d & -> & H3). exists (rev (t ++ [d])).
  assert (R : Forall (fun d => 0 <= d < base) (rev (t ++ [d]))) by now apply Forall_rev.
  split; [now apply (chars_of_digits f base)|]. split; [assumption|]. split; [assumption|].
  right. exists d, (rev t). split; [apply rev_unit|assumption].
Qed.

Lemma zero_numeral : forall base, 2 <= base -> numeral base 0 [48].
Proof.
  intros base Hb. exists [0]. split; [repeat constructor; lia|]. split; [repeat constructor; lia|]. split; [unfold value; cbn; lia|now left].
Qed.

(** * itoa *)

Definition itoa_char (d : Z) : Z := s8 (if d <? 10 then CH_ZERO + d else CH_A + (d - 10)).

Lemma itoa_char_is : forall d, 0 <= d < 16 -> digit_is (itoa_char d) d.
Proof.
  intros d H. unfold itoa_char, s8, sgn, CH_ZERO, CH_A, digit_is. destruct (Z.ltb_spec d 10).
  - left. split; [lia|]. rewrite Z.mod_small by lia. destruct (Z.ltb_spec (48 + d) (2 ^ (8 - 1))); lia.
  - right. split; [lia|]. rewrite Z.mod_small by lia. destruct (Z.ltb_spec (97 + (d - 10)) (2 ^ (8 - 1))); lia.
Qed.

Lemma itoa_div : forall base n, 2 <= base -> 0 <= n < 2 ^ 32 -> base < 2 ^ 32 ->
  u32 (n - n mod u32 base) / u32 base = n / base.
Proof.
  intros base n Hb Hn H. rewrite (u32_id base) by lia.
  pose proof (Z.div_mod n base ltac:(lia)) as E. pose proof (Z.mod_pos_bound n base ltac:(lia)) as B.
  assert (L : n mod base <= n) by (apply Z.mod_le; lia).
  rewrite u32_id by lia. replace (n - n mod base) with (n / base * base) by lia. apply Z.div_mul. lia.
Qed.

Lemma itoa_digits_spec : forall fuel base n, 2 <= base -> base < 2 ^ 32 -> 0 < n < base ^ Z.of_nat fuel -> n < 2 ^ 32 ->
  exists ds, itoa_digits fuel base n = Some (map itoa_char ds) /\ digits_of base n ds.
Proof.
  induction fuel as [|f IH]; intros base n Hb Hb2 Hn H32; [change (base ^ Z.of_nat 0) with 1 in Hn; lia|].
  cbn [itoa_digits]. rewrite itoa_div by lia. fold (itoa_char (n mod u32 base)). rewrite (u32_id base) by lia.
  destruct (pow_pos_nat base f Hb) as (P1 & P2). rewrite P1 in Hn.
  assert (Q : 0 <= n / base) by (apply Z.div_pos; lia).
  destruct (Z.eqb_spec (n / base) 0) as [E|E].
  - apply div_small_step in E; try lia. exists [n]. rewrite Z.mod_small by lia. split; [reflexivity|apply digits_last; lia].
  - assert (L : n / base <= n) by (apply Z.div_le_upper_bound; [lia|]; rewrite <- (Z.mul_1_l n) at 1; apply Z.mul_le_mono_nonneg_r; lia).
    destruct (IH base (n / base) Hb Hb2) as (ds & D1 & D2).
    { split; [lia|]. apply Z.div_lt_upper_bound; lia. }
    { lia. }
    rewrite D1. exists (n mod base :: ds). split; [reflexivity|]. apply digits_step; auto; lia.
Qed.

(** A number that needs more digits than there is room for. *)
Lemma itoa_digits_none : forall fuel base n, 2 <= base -> base < 2 ^ 32 -> base ^ Z.of_nat fuel <= n < 2 ^ 32 ->
  itoa_digits fuel base n = None.
Proof.
  induction fuel as [|f IH]; intros base n Hb Hb2 Hn; [reflexivity|].
  destruct (pow_pos_nat base f Hb) as (P1 & P2). rewrite P1 in Hn.
  assert (0 <= base * base ^ Z.of_nat f) by (apply Z.mul_nonneg_nonneg; lia).
  cbn [itoa_digits]. rewrite itoa_div by lia.
  assert (L : base ^ Z.of_nat f <= n / base) by (apply Z.div_le_lower_bound; lia).
  assert (U : n / base <= n) by (apply Z.div_le_upper_bound; [lia|]; rewrite <- (Z.mul_1_l n) at 1; apply Z.mul_le_mono_nonneg_r; lia).
  destruct (Z.eqb_spec (n / base) 0); [lia|]. rewrite IH by lia. reflexivity.
Qed.

(** * atoi *)

Lemma atoi_value : forall l ds acc, Forall2 digit_is l ds -> Forall (fun d => 0 <= d < 10) ds -> 0 <= acc ->
  acc * 10 ^ Z.of_nat (length ds) + value 10 ds < 2 ^ 31 - 48 ->
  atoi_loop l acc = Int (acc * 10 ^ Z.of_nat (length ds) + value 10 ds).
Proof.
  intros l ds acc H. revert acc. induction H as [|c d l ds Hc H IH]; intros acc Hd Ha Hv.
  - cbn [atoi_loop length]. f_equal. change (10 ^ Z.of_nat 0) with 1. unfold value. cbn. lia.
  - inversion Hd as [|? ? Hd0 Hd']; subst. cbn [atoi_loop].
    assert (c = 48 + d) by (unfold digit_is in Hc; lia). subst c.
    destruct (Z.ltb_spec (48 + d) 48); [lia|]. destruct (Z.ltb_spec 57 (48 + d)); [lia|]. cbn [orb].
    rewrite value_cons in Hv |- *. cbn [length] in *. destruct (pow_pos_nat 10 (length ds) ltac:(lia)) as (P1 & P2). rewrite P1 in Hv |- *.
    pose proof (value_bound 10 ds ltac:(lia) Hd') as Vb. set (P := 10 ^ Z.of_nat (length ds)) in *.
    replace (acc * (10 * P) + (d * P + value 10 ds)) with ((10 * acc + d) * P + value 10 ds) in * by ring.
    assert (10 * acc + d <= (10 * acc + d) * P) by (rewrite <- (Z.mul_1_r (10 * acc + d)) at 1; apply Z.mul_le_mono_nonneg_l; lia).
    destruct (Z.leb_spec (10 * acc) (2 ^ 31 - 1)); [|lia]. destruct (Z.leb_spec (10 * acc + (48 + d)) (2 ^ 31 - 1)); [|lia].
    cbn [andb]. replace (10 * acc + (48 + d) - 48) with (10 * acc + d) by lia. apply IH; auto; lia.
Qed.
