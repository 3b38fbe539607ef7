(** Counting argument for round robin, and the insertion sort of RMS. *)
From Verif Require Import Model.Base Model.State Model.Sched Spec.SchedSpec Proof.Tac Proof.SchedProof.
From Coq Require Import Permutation Sorted.

Lemma in_zseq : forall n low i, In i (zseq low n) <-> low <= i < low + Z.of_nat n.
Proof.
  induction n as [|n IH]; intros low i; cbn [zseq In]; [lia|]. rewrite IH. lia.
Qed.
Lemma in_ids : forall low high i, In i (ids low high) <-> in_range low high i.
Proof. intros. unfold ids, in_range. rewrite in_zseq. lia. Qed.
Lemma zseq_nodup : forall n low, NoDup (zseq low n).
Proof.
  induction n as [|n IH]; intro low; cbn; constructor; [|apply IH]. rewrite in_zseq. lia.
Qed.
Lemma zseq_length : forall n low, length (zseq low n) = n.
Proof. induction n; intro low; cbn; congruence. Qed.

Lemma in_ready_ids : forall p low high th i,
  In i (ready_ids p low high th) <-> in_range low high i /\ ready_thread p th i.
Proof.
  intros. unfold ready_ids. rewrite filter_In, in_ids.
  change (ready_b p th i) with (ready_on p th i). rewrite ready_on_iff. tauto.
Qed.

Lemma elections_length : forall sched idle prev cur ths es,
  elections sched idle prev cur ths es -> length es = length ths.
Proof. induction 1; cbn; congruence. Qed.

(** If the set of ready threads stays the same, every one of them is elected within as many elections
    as there are ready threads. *)
Lemma rr_fair : forall p idle low high th0 ths es prev cur x,
  ~ in_range low high idle -> low < high ->
  idle_or_in idle low high prev -> in_range low high cur ->
  elections (rr p idle low high) idle prev cur ths es -> exhausted cur ths es ->
  (forall th i, In th ths -> in_range low high i -> (ready_thread p th i <-> ready_thread p th0 i)) ->
  (length (ready_ids p low high th0) <= length ths)%nat ->
  In x (ready_ids p low high th0) -> In x es.
Proof.
  intros p idle low high th0 ths es prev cur x Hid Hlh Hp Hc Hel Hex Hsame Hlen Hx.
  destruct (in_dec Z.eq_dec x es) as [|Hni]; [assumption|exfalso].
  apply in_ready_ids in Hx. destruct Hx as (Hxr & Hxready).
  destruct (rr_distances p idle low high x ths es prev cur Hid Hlh Hp Hc Hxr Hel Hex) as (Hnd & Hall & Hrd).
  { intros th Hin. apply Hsame; assumption. }
  { assumption. }
  assert (Hincl : incl (x :: es) (ready_ids p low high th0)).
  { intros e [<-|He]; apply in_ready_ids; [now split|].
    split; [now apply Hall|].
    destruct (In_nth_error _ _ He) as (n & Hn).
    assert (Hl := elections_length _ _ _ _ _ _ Hel).
    assert (Hlt : (n < length ths)%nat). { rewrite <- Hl. apply nth_error_Some. congruence. }
    destruct (nth_error ths n) as [th|] eqn:E; [|apply nth_error_None in E; lia].
    apply (Hsame th); [now apply nth_error_In with n|now apply Hall|]. now apply Hrd with n. }
  assert (Hnd' : NoDup (x :: es)) by now constructor.
  pose proof (NoDup_incl_length Hnd' Hincl) as HL. cbn [length] in HL.
  rewrite (elections_length _ _ _ _ _ _ Hel) in HL. lia.
Qed.

(** ** Insertion sort *)
Lemma insert_shift_spec : forall A fuel (key : A -> Z) f low j v,
  low - 1 <= j -> j - low + 1 <= Z.of_nat fuel ->
  exists pos, low <= pos <= j + 1 /\
    (forall x, insert_shift fuel key f low j v x =
       if x =? pos then v else if (pos <? x) && (x <=? j + 1) then f (x - 1) else f x) /\
    (forall x, pos <= x <= j -> key v < key (f x)) /\
    (pos = low \/ key (f (pos - 1)) <= key v).
Proof.
  intros A. induction fuel as [|fuel IH]; intros key f low j v Hj Hfuel.
  - exists (j + 1). split; [lia|]. split; [|split; [intros; lia|left; lia]].
    intro x. cbn [insert_shift]. unfold upd. destruct (Z.eqb_spec x (j + 1)); [reflexivity|].
    destruct (Z.ltb_spec (j + 1) x); destruct (Z.leb_spec x (j + 1)); cbn [andb]; try reflexivity. lia.
  - cbn [insert_shift].
    destruct (Z.leb_spec low j) as [L|L]; cbn [andb].
    2:{ exists (j + 1). split; [lia|]. split; [|split; [intros; lia|left; lia]].
        intro x. unfold upd. destruct (Z.eqb_spec x (j + 1)); [reflexivity|].
        destruct (Z.ltb_spec (j + 1) x); destruct (Z.leb_spec x (j + 1)); cbn [andb]; try reflexivity. lia. }
    destruct (Z.ltb_spec (key v) (key (f j))) as [K|K].
    + destruct (IH key (upd f (j + 1) (f j)) low (j - 1) v ltac:(lia) ltac:(lia)) as (pos & Hpos & Hx & Hk & He).
      replace (j - 1 + 1) with j in * by lia.
      exists pos. split; [lia|]. split; [|split].
      * intro x. rewrite Hx. destruct (Z.eqb_spec x pos); [reflexivity|].
        destruct (Z.ltb_spec pos x); cbn [andb].
        -- destruct (Z.leb_spec x j).
           ++ rewrite (proj2 (Z.leb_le x (j + 1))) by lia. apply upd_other. lia.
           ++ destruct (Z.leb_spec x (j + 1)).
              ** replace x with (j + 1) by lia. rewrite upd_same. f_equal. lia.
              ** apply upd_other. lia.
        -- apply upd_other. lia.
      * intros x Hx'. destruct (Z.eq_dec x j) as [->|]; [assumption|].
        specialize (Hk x ltac:(lia)). rewrite upd_other in Hk by lia. assumption.
      * destruct He as [|He]; [now left|right]. rewrite upd_other in He by lia. assumption.
    + exists (j + 1). split; [lia|]. split; [|split; [intros; lia|right]].
      * intro x. unfold upd. destruct (Z.eqb_spec x (j + 1)); [reflexivity|].
        destruct (Z.ltb_spec (j + 1) x); destruct (Z.leb_spec x (j + 1)); cbn [andb]; try reflexivity. lia.
      * replace (j + 1 - 1) with j by lia. assumption.
Qed.


Lemma zseq_snoc : forall n low, zseq low (S n) = zseq low n ++ [low + Z.of_nat n].
Proof.
  induction n as [|n IH]; intro low.
  - cbn. now rewrite Z.add_0_r.
  - change (zseq low (S (S n))) with (low :: zseq (low + 1) (S n)). rewrite IH.
    cbn [zseq app]. do 3 f_equal. lia.
Qed.
Lemma zseq_app : forall a b low, zseq low (a + b) = zseq low a ++ zseq (low + Z.of_nat a) b.
Proof.
  induction a as [|a IH]; intros b low; cbn [plus zseq app].
  - now rewrite Z.add_0_r.
  - rewrite IH. do 3 f_equal. lia.
Qed.
Lemma slice_split : forall A (f : Z -> A) low mid high, low <= mid <= high ->
  slice f low high = slice f low mid ++ slice f mid high.
Proof.
  intros A f low mid high H. unfold slice, ids. rewrite <- map_app. f_equal.
  replace (Z.to_nat (high - low)) with (Z.to_nat (mid - low) + Z.to_nat (high - mid))%nat by lia.
  rewrite zseq_app. do 2 f_equal. lia.
Qed.
Lemma slice_cons : forall A (f : Z -> A) low high, low < high ->
  slice f low high = f low :: slice f (low + 1) high.
Proof.
  intros A f low high H. unfold slice, ids.
  replace (Z.to_nat (high - low)) with (S (Z.to_nat (high - (low + 1)))) by lia. reflexivity.
Qed.
Lemma slice_snoc : forall A (f : Z -> A) low high, low <= high ->
  slice f low (high + 1) = slice f low high ++ [f high].
Proof.
  intros A f low high H. unfold slice, ids.
  replace (Z.to_nat (high + 1 - low)) with (S (Z.to_nat (high - low))) by lia.
  rewrite zseq_snoc, map_app. cbn. do 2 f_equal. f_equal. lia.
Qed.
Lemma slice_ext : forall A (f g : Z -> A) low high,
  (forall i, low <= i < high -> f i = g i) -> slice f low high = slice g low high.
Proof. intros A f g low high H. apply map_ext_in. intros i Hi. apply in_ids in Hi. now apply H. Qed.
Lemma slice_shift : forall A (f : Z -> A) low high,
  slice (fun x => f (x - 1)) (low + 1) (high + 1) = slice f low high.
Proof.
  intros A f low high. unfold slice, ids. replace (high + 1 - (low + 1)) with (high - low) by lia.
  generalize (Z.to_nat (high - low)) as n. intro n. revert low.
  induction n as [|n IH]; intro low; cbn; [reflexivity|]. rewrite IH. f_equal. f_equal. lia.
Qed.


Lemma insert_sort_spec : forall A (key : A -> Z) f low i,
  low <= i -> ordered key f low i ->
  ordered key (insert_sort key f low i) low (i + 1) /\
  Permutation (slice (insert_sort key f low i) low (i + 1)) (slice f low (i + 1)) /\
  (forall x, x < low \/ i < x -> insert_sort key f low i x = f x) /\
  exists pos, low <= pos <= i /\ insert_sort key f low i pos = f i /\
    (pos < i -> key (f i) < key (f (i - 1))) /\
    (forall x, pos < x <= i -> insert_sort key f low i x = f (x - 1)) /\
    (forall x, x < pos -> insert_sort key f low i x = f x).
Proof.
  intros A key f low i Hi Hord. unfold insert_sort.
  destruct (insert_shift_spec A (Z.to_nat (i - low)) key f low (i - 1) (f i) ltac:(lia) ltac:(lia))
    as (pos & Hpos & Hx & Hk & He).
  replace (i - 1 + 1) with i in * by lia.
  set (g := insert_shift (Z.to_nat (i - low)) key f low (i - 1) (f i)) in *.
  assert (Hg1 : g pos = f i). { rewrite Hx. now rewrite Z.eqb_refl. }
  assert (Hg2 : forall x, pos < x <= i -> g x = f (x - 1)).
  { intros x H. rewrite Hx. destruct (Z.eqb_spec x pos); [lia|].
    rewrite (proj2 (Z.ltb_lt pos x)), (proj2 (Z.leb_le x i)) by lia. reflexivity. }
  assert (Hg3 : forall x, x < pos \/ i < x -> g x = f x).
  { intros x H. rewrite Hx. destruct (Z.eqb_spec x pos); [lia|].
    destruct (Z.ltb_spec pos x); destruct (Z.leb_spec x i); cbn [andb]; try reflexivity. lia. }
  split; [|split; [|split]].
  - intros a b Ha Hab Hb.
    assert (La : a = pos \/ pos < a \/ a < pos) by lia. assert (Lb : b = pos \/ pos < b \/ b < pos) by lia.
    destruct La as [->|[La|La]]; destruct Lb as [->|[Lb|Lb]]; try lia;
      rewrite ?Hg1; repeat first [rewrite (Hg2 a) by lia | rewrite (Hg2 b) by lia
        | rewrite (Hg3 a) by lia | rewrite (Hg3 b) by lia]; try lia.
    + specialize (Hk (b - 1) ltac:(lia)). lia.
    + apply Hord; lia.
    + destruct He as [|He]; [lia|]. specialize (Hord a (pos - 1) Ha ltac:(lia) ltac:(lia)). lia.
    + apply Hord; lia.
    + apply Hord; lia.
  - rewrite (slice_split A g low pos (i + 1)) by lia. rewrite (slice_cons A g pos (i + 1)) by lia.
    rewrite (slice_split A f low i (i + 1)) by lia. rewrite (slice_split A f low pos i) by lia.
    rewrite (slice_cons A f i (i + 1)) by lia.
    rewrite (slice_ext A g f low pos) by (intros; apply Hg3; lia).
    rewrite (slice_ext A g (fun x => f (x - 1)) (pos + 1) (i + 1)) by (intros; apply Hg2; lia).
    rewrite slice_shift. rewrite Hg1.
    assert (En : slice f (i + 1) (i + 1) = []). { unfold slice, ids. now rewrite Z.sub_diag. }
    rewrite En. rewrite <- app_assoc. apply Permutation_app_head.
    rewrite <- Permutation_middle. now rewrite app_nil_r.
  - intros x H. apply Hg3. lia.
  - exists pos. split; [lia|]. split; [assumption|]. split; [|split; [assumption|intros; apply Hg3; lia]].
    intro Hlt. apply Hk. lia.
Qed.
