(** Memory and string functions. *)
From Verif Require Import Model.Base Model.Libc Spec.LibcSpec Proof.Tac.

Lemma u32_id : forall x, 0 <= x < 2 ^ 32 -> u32 x = x.
Proof. intros x H. unfold u32. now apply Z.mod_small. Qed.

(** * Copying *)

Lemma copied_refl : forall m to from, copied m m to from 0.
Proof. intros m to from. split; [intros; lia|reflexivity]. Qed.

Lemma copied_app : forall m m1 m2 to from a b, 0 <= a -> 0 <= b -> disjoint to from (a + b) ->
  copied m m1 to from a -> copied m1 m2 (to + a) (from + a) b -> copied m m2 to from (a + b).
Proof.
  intros m m1 m2 to from a b Ha Hb D (A1 & A2) (B1 & B2). split.
  - intros k Hk. destruct (Z_lt_le_dec k a) as [L|L].
    + rewrite B2 by lia. apply A1. lia.
    + replace (to + k) with (to + a + (k - a)) by lia. rewrite B1 by lia.
      replace (from + a + (k - a)) with (from + k) by lia. apply A2. intros C. apply (D (from + k)); lia.
  - intros x Hx. rewrite B2 by lia. apply A2. lia.
Qed.

Lemma disjoint_part : forall to from n a b, disjoint to from n -> 0 <= a -> a + b <= n -> disjoint (to + a) (from + a) b.
Proof. intros to from n a b D Ha Hb x H1 H2. apply (D x); lia. Qed.

Lemma copied_one : forall m to from, copied m (upd m to (m from)) to from 1.
Proof.
  intros m to from. split.
  - intros k Hk. replace k with 0 by lia. rewrite !Z.add_0_r. apply upd_same.
  - intros x Hx. apply upd_other. lia.
Qed.

Lemma copied_two : forall m to from, fits to 2 -> fits from 2 -> disjoint to from 2 -> copied m (copy_two m to from) to from 2.
Proof.
  intros m to from (T1 & _ & T2) (F1 & _ & F2) D. unfold copy_two. rewrite !u32_id by lia. split.
  - intros k Hk. assert (k = 0 \/ k = 1) as [-> | ->] by lia.
    + rewrite !Z.add_0_r. rewrite upd_other by lia. apply upd_same.
    + apply upd_same.
  - intros x Hx. rewrite !upd_other by lia. reflexivity.
Qed.

Lemma copied_four : forall m to from, fits to 4 -> fits from 4 -> copied m (copy_four m to from) to from 4.
Proof.
  intros m to from (T1 & _ & T2) (F1 & _ & F2). unfold copy_four. rewrite !u32_id by lia. split.
  - intros k Hk. assert (k = 0 \/ k = 1 \/ k = 2 \/ k = 3) as [-> | [-> | [-> | ->]]] by lia.
    + rewrite !Z.add_0_r. rewrite !upd_other by lia. apply upd_same.
    + rewrite !(upd_other _ _ _ _ (to + 1)) by lia. apply upd_same.
    + rewrite !(upd_other _ _ _ _ (to + 2)) by lia. apply upd_same.
    + apply upd_same.
  - intros x Hx. rewrite !upd_other by lia. reflexivity.
Qed.

Lemma copy_bytes_spec : forall n m to from, fits to (Z.of_nat n) -> fits from (Z.of_nat n) -> disjoint to from (Z.of_nat n) ->
  copied m (copy_bytes n m to from) to from (Z.of_nat n).
Proof.
  induction n as [|n IH]; intros m to from T F D; [apply copied_refl|].
  destruct n as [|n']; [cbn [copy_bytes]; apply copied_one|]. remember (S n') as n eqn:En.
  cbn [copy_bytes]. unfold fits in *. rewrite !u32_id by lia.
  replace (Z.of_nat (S n)) with (1 + Z.of_nat n) in * by lia.
  apply copied_app with (m1 := upd m to (m from)); try lia; [assumption|apply copied_one|].
  apply IH; try lia. apply disjoint_part with (1 + Z.of_nat n); [assumption|lia|lia].
Qed.

Lemma copy_longs_spec : forall n m to from, fits to (4 * Z.of_nat n) -> fits from (4 * Z.of_nat n) ->
  disjoint to from (4 * Z.of_nat n) -> copied m (copy_longs n m to from) to from (4 * Z.of_nat n).
Proof.
  induction n as [|n IH]; intros m to from T F D; [apply copied_refl|].
  destruct n as [|n']; [cbn [copy_longs]; now apply copied_four|]. remember (S n') as n eqn:En.
  cbn [copy_longs]. unfold fits in *. rewrite !u32_id by lia.
  replace (4 * Z.of_nat (S n)) with (4 + 4 * Z.of_nat n) in * by lia.
  apply copied_app with (m1 := copy_four m to from); try lia; [assumption|apply copied_four; unfold fits; lia|].
  apply IH; try lia. apply disjoint_part with (4 + 4 * Z.of_nat n); [assumption|lia|lia].
Qed.

Lemma low_bits : forall n, 0 <= n -> n = 4 * (n / 4) + (if Z.testbit n 1 then 2 else 0) + (if Z.testbit n 0 then 1 else 0).
Proof.
  intros n H. rewrite (Z.testbit_odd n 1), Z.bit0_odd, Z.shiftr_div_pow2 by lia. change (2 ^ 1) with 2.
  rewrite !Zodd_even_bool, !Zeven_mod.
  assert (D : n / 4 = n / 2 / 2) by (rewrite Z.div_div by lia; reflexivity). rewrite D.
  pose proof (Z.div_mod n 2 ltac:(lia)). pose proof (Z.mod_pos_bound n 2 ltac:(lia)).
  pose proof (Z.div_mod (n / 2) 2 ltac:(lia)). pose proof (Z.mod_pos_bound (n / 2) 2 ltac:(lia)).
  assert (C1 : n mod 2 = 0 \/ n mod 2 = 1) by lia. assert (C2 : (n / 2) mod 2 = 0 \/ (n / 2) mod 2 = 1) by lia.
  destruct C1 as [C1|C1], C2 as [C2|C2]; rewrite C1, C2; vm_compute negb; cbn iota; lia.
Qed.

Lemma memcpy_i386_spec : forall m to from n, 0 <= n -> fits to n -> fits from n -> disjoint to from n ->
  copied m (memcpy_i386 m to from n) to from n.
Proof.
  intros m to from n Hn T F D. unfold memcpy_i386. pose proof (low_bits n Hn) as E. set (k := n / 4) in *.
  assert (Hk : 0 <= k) by (apply Z.div_pos; lia).
  pose proof (copy_longs_spec (Z.to_nat k) m to from) as L. rewrite Z2Nat.id in L by assumption.
  set (m1 := copy_longs (Z.to_nat k) m to from) in *. unfold fits in *.
  assert (Dk : disjoint to from (4 * k)) by (intros x ? ?; apply (D x); destruct (Z.testbit n 1), (Z.testbit n 0); lia).
  assert (L1 : copied m m1 to from (4 * k)) by (apply L; [destruct (Z.testbit n 1), (Z.testbit n 0); lia..|assumption]). clear L.
  assert (Two : forall m0 t f, 0 <= t -> t + 2 <= 2 ^ 32 -> 0 <= f -> f + 2 <= 2 ^ 32 -> disjoint t f 2 ->
    copied m0 (copy_two m0 t f) t f 2) by (intros; apply copied_two; unfold fits; auto; lia).
  destruct (Z.testbit n 1), (Z.testbit n 0).
  - rewrite (u32_id (to + 4 * k)), (u32_id (from + 4 * k)), (u32_id (to + 4 * k + 2)), (u32_id (from + 4 * k + 2)) by lia.
    rewrite E. replace (4 * k + 2 + 1) with ((4 * k + 2) + 1) by lia.
    assert (D' : disjoint to from (4 * k + 2)) by (intros x ? ?; apply (D x); lia).
    apply copied_app with (m1 := copy_two m1 (to + 4 * k) (from + 4 * k)); try lia; [rewrite <- E; assumption| |].
    + apply copied_app with (m1 := m1); try lia; try assumption.
      apply Two; try lia. apply disjoint_part with (4 * k + 2); [assumption|lia|lia].
    + replace (to + 4 * k + 2) with (to + (4 * k + 2)) by lia. replace (from + 4 * k + 2) with (from + (4 * k + 2)) by lia.
      apply copied_one.
  - rewrite E, Z.add_0_r. destruct (Z.eq_dec (to + 4 * k) (2 ^ 32)); [lia|]. rewrite !(u32_id (_ + 4 * k)) by lia.
    apply copied_app with (m1 := m1); try lia; try assumption; [replace (4 * k + 2) with n by lia; assumption|].
    apply Two; try lia. apply disjoint_part with n; [assumption|lia|lia].
  - rewrite E, Z.add_0_r. rewrite (u32_id (to + 4 * k)), (u32_id (from + 4 * k)) by lia.
    apply copied_app with (m1 := m1); try lia; try assumption; [replace (4 * k + 1) with n by lia; assumption|].
    apply copied_one.
  - rewrite E, !Z.add_0_r. assumption.
Qed.

Lemma set_bytes_spec : forall n m d v, fits d (Z.of_nat n) -> filled m (set_bytes n m d v) d v (Z.of_nat n).
Proof.
  induction n as [|n IH]; intros m d v F; [split; [intros; lia|reflexivity]|].
  cbn [set_bytes]. destruct n as [|n'].
  - cbn [set_bytes]. split; [intros k Hk; replace k with 0 by lia; rewrite Z.add_0_r; apply upd_same|].
    intros x Hx. apply upd_other. lia.
  - remember (S n') as n eqn:En. unfold fits in *. rewrite u32_id by lia.
    destruct (IH (upd m d v) (d + 1) v) as (I1 & I2); [lia|]. split.
    + intros k Hk. destruct (Z.eq_dec k 0) as [->|].
      * rewrite Z.add_0_r. rewrite I2 by lia. apply upd_same.
      * replace (d + k) with (d + 1 + (k - 1)) by lia. apply I1. lia.
    + intros x Hx. rewrite I2 by lia. apply upd_other. lia.
Qed.

(** * Comparing words *)

Lemma load32_eq : forall m a b, (forall x, is_byte (m x)) -> fits a 4 -> fits b 4 ->
  (load32 m a = load32 m b <-> forall k, 0 <= k < 4 -> m (a + k) = m (b + k)).
Proof.
  intros m a b B (A1 & _ & A2) (B1 & _ & B2). unfold load32. rewrite !u32_id by lia.
  pose proof (B a). pose proof (B (a + 1)). pose proof (B (a + 2)). pose proof (B (a + 3)).
  pose proof (B b). pose proof (B (b + 1)). pose proof (B (b + 2)). pose proof (B (b + 3)). unfold is_byte in *. split.
  - intros E k Hk. assert (m a = m b /\ m (a + 1) = m (b + 1) /\ m (a + 2) = m (b + 2) /\ m (a + 3) = m (b + 3)) as (E0 & E1 & E2 & E3) by lia.
    assert (k = 0 \/ k = 1 \/ k = 2 \/ k = 3) as [-> | [-> | [-> | ->]]] by lia; rewrite ?Z.add_0_r; assumption.
  - intros HH. pose proof (HH 0 ltac:(lia)) as E0. rewrite !Z.add_0_r in E0.
    rewrite E0, (HH 1), (HH 2), (HH 3) by lia. reflexivity.
Qed.

Lemma memcmp_zero : forall n m a b, (forall x, is_byte (m x)) -> fits a (4 * Z.of_nat n) -> fits b (4 * Z.of_nat n) ->
  (memcmp_loop n m a b = 0 <-> forall k, 0 <= k < 4 * Z.of_nat n -> m (a + k) = m (b + k)).
Proof.
  induction n as [|n IH]; intros m a b B A F; [split; [intros; lia|reflexivity]|].
  cbn [memcmp_loop]. unfold fits in *.
  pose proof (load32_eq m a b B) as L. unfold fits in L. specialize (L ltac:(lia) ltac:(lia)).
  destruct (Z.eqb_spec (load32 m a) (load32 m b)) as [E|N]; cbn [negb].
  - assert (R : memcmp_loop n m (u32 (a + 4)) (u32 (b + 4)) = 0 <-> forall k, 0 <= k < 4 * Z.of_nat n -> m (a + 4 + k) = m (b + 4 + k)).
    { destruct n as [|n']; [split; [intros; lia|reflexivity]|]. remember (S n') as n. rewrite !u32_id by lia. apply IH; auto; lia. }
    rewrite R. split.
    + intros H k Hk. destruct (Z_lt_le_dec k 4); [apply L; [assumption|lia]|].
      replace (a + k) with (a + 4 + (k - 4)) by lia. replace (b + k) with (b + 4 + (k - 4)) by lia. apply H. lia.
    + intros H k Hk. rewrite <- !Z.add_assoc. apply H. lia.
  - split.
    + destruct (_ <? _); discriminate.
    + intros H. exfalso. apply N, L. intros k Hk. apply H. lia.
Qed.

(** * Strings *)

Lemma s8_signed : forall x, is_byte x -> s8 x = as_signed x.
Proof. intros x H. unfold is_byte in H. unfold s8, sgn, as_signed. rewrite Z.mod_small by lia. reflexivity. Qed.

Lemma signed_inj : forall a b, is_byte a -> is_byte b -> as_signed a = as_signed b -> a = b.
Proof. intros a b A B. unfold is_byte, as_signed in *. destruct (Z.ltb_spec a 128), (Z.ltb_spec b 128); lia. Qed.

Lemma bytes_cons : forall m p c l, bytes_at m p (c :: l) -> m p = c /\ bytes_at m (p + 1) l.
Proof.
  intros m p c l H. split.
  - specialize (H 0%nat ltac:(cbn; lia)). cbn in H. now rewrite Z.add_0_r in H.
  - intros k Hk. specialize (H (S k) ltac:(cbn; lia)). cbn [nth] in H. rewrite <- H. f_equal. lia.
Qed.

Lemma strlen_spec : forall l m p n fuel, (length l < fuel)%nat -> fits p (Z.of_nat (length l) + 1) -> ~ In 0 l ->
  bytes_at m p (l ++ [0]) -> 0 <= n -> n + Z.of_nat (length l) < 2 ^ 32 ->
  strlen_loop fuel m p n = Some (n + Z.of_nat (length l)).
Proof.
  induction l as [|c l IH]; intros m p n fuel Hf F Hz B Hn Hb; (destruct fuel as [|fuel]; [cbn in Hf; lia|]); cbn [strlen_loop].
  - apply bytes_cons in B. destruct B as (-> & _). cbn. now rewrite Z.add_0_r.
  - change ((c :: l) ++ [0]) with (c :: (l ++ [0])) in B. apply bytes_cons in B. destruct B as (E & B). destruct (Z.eqb_spec (m p) 0) as [X|X].
    + exfalso. apply Hz. left. congruence.
    + cbn [length] in *. unfold fits in *. rewrite !u32_id by lia. rewrite IH; try assumption; try lia; [f_equal; lia|].
      intros C. apply Hz. now right.
Qed.

Lemma scasb_spec : forall l m p n fuel, (length l < fuel)%nat -> fits p (Z.of_nat (length l) + 1) -> ~ In 0 l ->
  bytes_at m p (l ++ [0]) -> Z.of_nat (length l) < n -> scasb fuel m p n = Some (n - 1 - Z.of_nat (length l)).
Proof.
  induction l as [|c l IH]; intros m p n fuel Hf F Hz B Hn; (destruct fuel as [|fuel]; [cbn in Hf; lia|]); cbn [scasb].
  - apply bytes_cons in B. destruct B as (-> & _). cbn [length] in *. destruct (Z.eqb_spec n 0); [lia|].
    change (0 =? 0) with true. cbn iota. f_equal. lia.
  - change ((c :: l) ++ [0]) with (c :: (l ++ [0])) in B. apply bytes_cons in B. destruct B as (E & B). cbn [length] in *. destruct (Z.eqb_spec n 0); [lia|].
    destruct (Z.eqb_spec (m p) 0) as [X|X].
    + exfalso. apply Hz. left. congruence.
    + unfold fits in *. rewrite !u32_id by lia. rewrite IH; try assumption; try lia; [f_equal; lia|].
      intros C. apply Hz. now right.
Qed.

(** The result of a comparison of two lists that end in 0. *)
Definition compared (r : Z) (l1 l2 : list Z) : Prop :=
  (r = 0 /\ l1 = l2) \/ (r = -1 /\ before signed_lt l1 l2) \/ (r = 1 /\ before signed_lt l2 l1).

Lemma before_here : forall (lt : Z -> Z -> Prop) a b l1 l2, lt a b -> before lt (a :: l1) (b :: l2).
Proof. intros lt a b l1 l2 H. exists [], a, b, l1, l2. auto. Qed.

Lemma before_cons : forall lt c l1 l2, before lt l1 l2 -> before lt (c :: l1) (c :: l2).
Proof. intros lt c l1 l2 (p & a & b & t1 & t2 & -> & -> & H). exists (c :: p), a, b, t1, t2. auto. Qed.

Lemma compared_cons : forall r c l1 l2, compared r l1 l2 -> compared r (c :: l1) (c :: l2).
Proof.
  intros r c l1 l2 [(H1 & ->) | [(H1 & H2) | (H1 & H2)]]; [left|right; left|right; right]; split; auto using before_cons.
Qed.

Lemma before_irrefl : forall lt l, (forall a, ~ lt a a) -> ~ before lt l l.
Proof.
  intros lt l I (p & a & b & t1 & t2 & E1 & E2 & H). rewrite E1 in E2. apply app_inv_head in E2.
  injection E2 as -> _. now apply (I b).
Qed.

Lemma before_asym : forall (lt : Z -> Z -> Prop), (forall a b, lt a b -> lt b a -> False) ->
  forall l1 l2, before lt l1 l2 -> before lt l2 l1 -> False.
Proof.
  intros lt A l1 l2 (p & a & b & t1 & t2 & -> & -> & H) (q & c & d & u1 & u2 & E1 & E2 & K).
  revert q E1 E2. induction p as [|x p IH]; intros [|y q] E1 E2; cbn in E1, E2; injection E1 as E1a E1b; injection E2 as E2a E2b.
  - subst. now apply (A d c).
  - subst. now apply (A y y).
  - subst. now apply (A d d).
  - now apply (IH q).
Qed.

Lemma compared_iff : forall r l1 l2, compared r l1 l2 ->
  (r = 0 <-> l1 = l2) /\ (r < 0 <-> before signed_lt l1 l2) /\ (0 < r <-> before signed_lt l2 l1).
Proof.
  assert (I : forall a, ~ signed_lt a a) by (intros a; unfold signed_lt; lia).
  assert (A : forall a b, signed_lt a b -> signed_lt b a -> False) by (intros a b; unfold signed_lt; lia).
  intros r l1 l2 [(-> & ->) | [(-> & H) | (-> & H)]].
  - split; [tauto|]. split; (split; [lia|intros C; now apply before_irrefl in C]).
  - split; [split; [lia|intros ->; now apply before_irrefl in H]|]. split; [split; [auto|lia]|].
    split; [lia|]. intros C. exfalso. exact (before_asym signed_lt A _ _ H C).
  - split; [split; [lia|intros ->; now apply before_irrefl in H]|]. split; [|split; [auto|lia]].
    split; [lia|]. intros C. exfalso. exact (before_asym signed_lt A _ _ H C).
Qed.

Lemma head_of : forall l, exists c t, l ++ [0] = c :: t /\ (Forall is_byte l -> is_byte c) /\
  ((l = [] /\ c = 0 /\ t = []) \/ exists l', l = c :: l' /\ t = l' ++ [0]).
Proof.
  intros [|c l]; [exists 0, []; split; [reflexivity|]; split; [unfold is_byte; lia|]; left; auto|].
  exists c, (l ++ [0]). split; [reflexivity|]. split; [intros H; now inversion H|]. right. exists l. auto.
Qed.

Lemma strcmp_spec : forall l1 l2 m s1 s2 i fuel, (length l1 < fuel)%nat -> 0 <= s1 -> 0 <= s2 -> 0 <= i ->
  s1 + i + Z.of_nat (length l1) < 2 ^ 32 -> s2 + i + Z.of_nat (length l2) < 2 ^ 32 ->
  Forall is_byte l1 -> Forall is_byte l2 -> ~ In 0 l1 -> ~ In 0 l2 ->
  bytes_at m (s1 + i) (l1 ++ [0]) -> bytes_at m (s2 + i) (l2 ++ [0]) ->
  exists r, strcmp_loop fuel m s1 s2 i = Some r /\ compared r (l1 ++ [0]) (l2 ++ [0]).
Proof.
  induction l1 as [|x l1 IH]; intros l2 m s1 s2 i fuel Hf H1 H2 Hi F1 F2 B1 B2 Z1 Z2 M1 M2;
    (destruct fuel as [|fuel]; [cbn in Hf; lia|]); cbn [strcmp_loop]; cbn [length] in *; rewrite !u32_id by lia.
  - apply bytes_cons in M1. destruct M1 as (-> & _). destruct (head_of l2) as (c & t & E & Bc & Hc).
    rewrite E in M2. apply bytes_cons in M2. destruct M2 as (-> & _). specialize (Bc B2).
    rewrite !s8_signed by (assumption || (unfold is_byte; lia)). change (0 =? 0) with true. cbn [andb].
    destruct (Z.eqb_spec c 0) as [Ec|Ec].
    + exists 0. split; [reflexivity|]. left. split; [reflexivity|].
      destruct Hc as [(-> & _)|(l' & -> & _)]; [reflexivity|]. exfalso. apply Z2. left. congruence.
    + assert (N : as_signed 0 <> as_signed c) by (intros C; apply signed_inj in C; auto; unfold is_byte; lia).
      rewrite E. destruct (Z.ltb_spec (as_signed 0) (as_signed c)).
      * eexists. split; [reflexivity|]. right; left. split; [reflexivity|]. now apply before_here.
      * destruct (Z.ltb_spec (as_signed c) (as_signed 0)); [|lia].
        eexists. split; [reflexivity|]. right; right. split; [reflexivity|]. now apply before_here.
  - change ((x :: l1) ++ [0]) with (x :: (l1 ++ [0])) in M1. apply bytes_cons in M1. destruct M1 as (-> & M1). destruct (head_of l2) as (c & t & E & Bc & Hc).
    rewrite E in M2. apply bytes_cons in M2. destruct M2 as (-> & M2). specialize (Bc B2).
    inversion B1 as [|? ? Bx B1']; subst. rewrite !s8_signed by assumption.
    destruct (Z.eqb_spec x 0) as [->|Ex]; [exfalso; apply Z1; now left|]. cbn [andb].
    rewrite E. change ((x :: l1) ++ [0]) with (x :: (l1 ++ [0])).
    destruct (Z.ltb_spec (as_signed x) (as_signed c)).
    + eexists. split; [reflexivity|]. right; left. split; [reflexivity|]. now apply before_here.
    + destruct (Z.ltb_spec (as_signed c) (as_signed x)).
      * eexists. split; [reflexivity|]. right; right. split; [reflexivity|]. now apply before_here.
      * assert (x = c) by (apply signed_inj; auto; lia). subst c.
        destruct Hc as [(_ & C & _)|(l' & -> & ->)]; [contradiction|]. cbn [length] in *.
        inversion B2; subst. rewrite ?u32_id by lia.
        destruct (IH l' m s1 s2 (i + 1) fuel) as (r & R1 & R2); auto; try lia.
        -- intros C. apply Z1. now right.
        -- intros C. apply Z2. now right.
        -- replace (s1 + (i + 1)) with (s1 + i + 1) by lia. assumption.
        -- replace (s2 + (i + 1)) with (s2 + i + 1) by lia. assumption.
        -- exists r. split; [assumption|]. now apply compared_cons.
Qed.

Lemma strncmp_spec : forall n l1 l2 m s1 s2 i, 0 <= s1 -> 0 <= s2 -> 0 <= i ->
  s1 + i + Z.of_nat (length l1) < 2 ^ 32 -> s2 + i + Z.of_nat (length l2) < 2 ^ 32 ->
  Forall is_byte l1 -> Forall is_byte l2 -> ~ In 0 l1 -> ~ In 0 l2 ->
  bytes_at m (s1 + i) (l1 ++ [0]) -> bytes_at m (s2 + i) (l2 ++ [0]) ->
  compared (strncmp_loop n m s1 s2 i) (firstn n (l1 ++ [0])) (firstn n (l2 ++ [0])).
Proof.
  induction n as [|n IH]; intros l1 l2 m s1 s2 i H1 H2 Hi F1 F2 B1 B2 Z1 Z2 M1 M2; [now left|].
  cbn [strncmp_loop]. rewrite !u32_id by lia.
  destruct (head_of l1) as (a & t1 & E1 & Ba & Ha). destruct (head_of l2) as (b & t2 & E2 & Bb & Hb).
  rewrite E1 in M1 |- *. rewrite E2 in M2 |- *. apply bytes_cons in M1. destruct M1 as (-> & M1).
  apply bytes_cons in M2. destruct M2 as (-> & M2). specialize (Ba B1). specialize (Bb B2).
  rewrite !s8_signed by assumption. cbn [firstn].
  destruct (Z.eqb_spec a 0) as [Ea|Ea]; [destruct (Z.eqb_spec b 0) as [Eb|Eb]|]; cbn [andb].
  - left. split; [reflexivity|]. subst a b.
    destruct Ha as [(_ & _ & ->)|(l & -> & _)]; [|exfalso; apply Z1; now left].
    destruct Hb as [(_ & _ & ->)|(l & -> & _)]; [|exfalso; apply Z2; now left]. reflexivity.
  - assert (N : as_signed a <> as_signed b) by (intros C; apply signed_inj in C; auto; lia).
    destruct (Z.ltb_spec (as_signed a) (as_signed b)).
    + right; left. split; [reflexivity|]. now apply before_here.
    + destruct (Z.ltb_spec (as_signed b) (as_signed a)); [|lia]. right; right. split; [reflexivity|]. now apply before_here.
  - destruct (Z.ltb_spec (as_signed a) (as_signed b)).
    + right; left. split; [reflexivity|]. now apply before_here.
    + destruct (Z.ltb_spec (as_signed b) (as_signed a)); [right; right; split; [reflexivity|]; now apply before_here|].
      assert (a = b) by (apply signed_inj; auto; lia). subst b.
      destruct Ha as [(_ & C & _)|(l & -> & ->)]; [contradiction|]. destruct Hb as [(_ & C & _)|(l' & -> & ->)]; [contradiction|].
      apply compared_cons. cbn [length] in *. inversion B1; inversion B2; subst. rewrite u32_id by lia.
      apply IH; auto; try lia.
      * intros C. apply Z1. now right.
      * intros C. apply Z2. now right.
      * replace (s1 + (i + 1)) with (s1 + i + 1) by lia. assumption.
      * replace (s2 + (i + 1)) with (s2 + i + 1) by lia. assumption.
Qed.
