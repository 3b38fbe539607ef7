(** strcpy, strncpy and streq. *)
From Verif Require Import Model.Base Model.Libc Spec.LibcSpec Proof.Tac Proof.MemFnProof.

Lemma bytes_upd : forall m p l a v, (forall k, (k < length l)%nat -> p + Z.of_nat k <> a) -> bytes_at m p l -> bytes_at (upd m a v) p l.
Proof. intros m p l a v H B k Hk. rewrite upd_other by now apply H. now apply B. Qed.

Lemma strcpy_spec : forall l m dest str i fuel, (length l < fuel)%nat -> 0 <= dest -> 0 <= str -> 0 <= i ->
  dest + i + Z.of_nat (length l) < 2 ^ 32 -> str + i + Z.of_nat (length l) < 2 ^ 32 ->
  disjoint (dest + i) (str + i) (Z.of_nat (length l) + 1) -> ~ In 0 l -> bytes_at m (str + i) (l ++ [0]) ->
  exists m', strcpy_loop fuel m dest str i = Some m' /\ copied m m' (dest + i) (str + i) (Z.of_nat (length l) + 1).
Proof.
  induction l as [|c l IH]; intros m dest str i fuel Hf Hd Hs Hi F1 F2 D Hz B; (destruct fuel as [|fuel]; [cbn in Hf; lia|]); cbn [strcpy_loop];
    cbn [length] in *; rewrite !u32_id by lia.
  - apply bytes_cons in B. destruct B as (E & _). rewrite E. change (0 =? 0) with true. cbn iota.
    eexists. split; [reflexivity|]. rewrite <- E. change (Z.of_nat 0 + 1) with 1. apply copied_one.
  - change ((c :: l) ++ [0]) with (c :: (l ++ [0])) in B. apply bytes_cons in B. destruct B as (E & B).
    destruct (Z.eqb_spec (m (str + i)) 0) as [X|X]; [exfalso; apply Hz; left; congruence|].
    destruct (IH (upd m (dest + i) (m (str + i))) dest str (i + 1) fuel) as (m' & R & C); try lia.
    + intros x H1 H2. apply (D x); lia.
    + intros C. apply Hz. now right.
    + apply bytes_upd.
      * intros k Hk C. rewrite app_length in Hk. cbn in Hk. apply (D (dest + i)); lia.
      * replace (str + (i + 1)) with (str + i + 1) by lia. assumption.
    + exists m'. split; [exact R|]. replace (Z.of_nat (S (length l)) + 1) with (1 + (Z.of_nat (length l) + 1)) in * by lia.
      apply copied_app with (m1 := upd m (dest + i) (m (str + i))); try lia; [assumption|apply copied_one|].
      replace (dest + i + 1) with (dest + (i + 1)) by lia. replace (str + i + 1) with (str + (i + 1)) by lia. assumption.
Qed.

Lemma strncpy_spec : forall n l m dest str i, 0 <= dest -> 0 <= str -> 0 <= i ->
  dest + i + Z.of_nat (length l) < 2 ^ 32 -> str + i + Z.of_nat (length l) < 2 ^ 32 ->
  disjoint (dest + i) (str + i) (Z.of_nat (length l) + 1) -> ~ In 0 l -> bytes_at m (str + i) (l ++ [0]) ->
  copied m (strncpy_loop n m dest str i) (dest + i) (str + i) (Z.min (Z.of_nat n) (Z.of_nat (length l) + 1)).
Proof.
  induction n as [|n IH]; intros l m dest str i Hd Hs Hi F1 F2 D Hz B.
  - rewrite Z.min_l by lia. apply copied_refl.
  - cbn [strncpy_loop]. rewrite !u32_id by lia. destruct l as [|c l].
    + apply bytes_cons in B. destruct B as (E & _). rewrite E. change (0 =? 0) with true. cbn iota. rewrite <- E.
      replace (Z.min _ _) with 1 by (cbn [length]; lia). apply copied_one.
    + change ((c :: l) ++ [0]) with (c :: (l ++ [0])) in B. apply bytes_cons in B. destruct B as (E & B). cbn [length] in *.
      destruct (Z.eqb_spec (m (str + i)) 0) as [X|X]; [exfalso; apply Hz; left; congruence|]. rewrite u32_id by lia.
      replace (Z.min (Z.of_nat (S n)) (Z.of_nat (S (length l)) + 1)) with (1 + Z.min (Z.of_nat n) (Z.of_nat (length l) + 1)) by lia.
      apply copied_app with (m1 := upd m (dest + i) (m (str + i))); try lia.
      * intros x H1 H2. apply (D x); lia.
      * apply copied_one.
      * replace (dest + i + 1) with (dest + (i + 1)) by lia. replace (str + i + 1) with (str + (i + 1)) in * by lia.
        apply (IH l); try lia.
        -- intros x H1 H2. apply (D x); lia.
        -- intros C. apply Hz. now right.
        -- apply bytes_upd; [|assumption]. intros k Hk C. rewrite app_length in Hk. cbn in Hk. apply (D (dest + i)); lia.
Qed.

Lemma streq_loop_same : forall n m a b, (forall k, 0 <= k < Z.of_nat n -> m (u32 (a + k)) = m (u32 (b + k))) -> streq_loop n m (u32 a) (u32 b) = 1.
Proof.
  induction n as [|n IH]; intros m a b H; [reflexivity|]. cbn [streq_loop]. destruct (_ || _); [reflexivity|].
  pose proof (H 0 ltac:(lia)) as E0. rewrite !Z.add_0_r in E0. rewrite E0, Z.eqb_refl. cbn [negb].
  assert (U : forall x y, u32 (u32 x + y) = u32 (x + y)) by (intros x y; unfold u32; apply Zplus_mod_idemp_l).
  rewrite !U. apply IH. intros k Hk. rewrite <- !Z.add_assoc. apply H. lia.
Qed.
