(** The thread schedulers satisfy their specification. *)
From Verif Require Import Model.Base Model.State Model.Sched Spec.SchedSpec Proof.Tac.

Lemma ready_on_iff : forall p th i, ready_on p th i = true <-> ready_thread p th i.
Proof. intros. unfold ready_on, ready_thread. rewrite andb_true_iff, !Z.eqb_eq. tauto. Qed.
Lemma ready_on_false : forall p th i, ready_on p th i = false <-> ~ ready_thread p th i.
Proof. intros. rewrite <- ready_on_iff. destruct (ready_on p th i); intuition discriminate. Qed.

(** Identifier at distance [k] from [from]. *)
Definition at_ (low high from k : Z) : Z := low + (from - low + k) mod (high - low).

Lemma at_range : forall low high from k, low < high -> in_range low high (at_ low high from k).
Proof. intros. unfold at_, in_range. pose proof (Z.mod_pos_bound (from - low + k) (high - low)). lia. Qed.
Lemma at_0 : forall low high from, in_range low high from -> at_ low high from 0 = from.
Proof. intros low high from H. unfold at_, in_range in *. rewrite Z.mod_small; lia. Qed.
Lemma at_full : forall low high from, in_range low high from -> at_ low high from (high - low) = from.
Proof.
  intros low high from H. unfold at_, in_range in *.
  replace (from - low + (high - low)) with (from - low + 1 * (high - low)) by lia.
  rewrite Z.mod_add by lia. rewrite Z.mod_small; lia.
Qed.
Lemma bump_at : forall low high from k, low < high ->
  bump low high (at_ low high from k) = at_ low high from (k + 1).
Proof.
  intros low high from k H. unfold bump, at_.
  set (N := high - low). set (x := from - low + k). assert (HN : 0 < N) by (unfold N; lia).
  replace (from - low + (k + 1)) with (x + 1) by (unfold x; lia).
  pose proof (Z.mod_pos_bound x N HN) as Hb.
  rewrite <- (Zplus_mod_idemp_l x 1).
  assert (HNe : high - low = N) by reflexivity. clearbody N x. generalize dependent (x mod N).
  intros m Hb. destruct (Z.leb_spec high (low + m + 1)).
  - replace (m + 1) with N by lia. rewrite Z.mod_same; lia.
  - rewrite Z.mod_small; lia.
Qed.
Lemma at_steps : forall low high from i, in_range low high i ->
  at_ low high from (steps_to low high from i) = i.
Proof.
  intros low high from i H. unfold at_, steps_to, in_range in *.
  rewrite Zplus_mod_idemp_r. replace (from - low + (i - from)) with (i - low) by lia.
  rewrite Z.mod_small; lia.
Qed.
Lemma steps_at : forall low high from k, low < high -> 0 <= k < high - low ->
  steps_to low high from (at_ low high from k) = k.
Proof.
  intros low high from k H Hk. unfold at_, steps_to.
  replace (low + (from - low + k) mod (high - low) - from)
    with ((from - low + k) mod (high - low) - (from - low)) by lia.
  rewrite Zminus_mod_idemp_l. replace (from - low + k - (from - low)) with k by lia.
  now rewrite Z.mod_small.
Qed.
Lemma steps_bound : forall low high from i, low < high -> 0 <= steps_to low high from i < high - low.
Proof. intros. unfold steps_to. apply Z.mod_pos_bound. lia. Qed.

(** Every identifier is at one of the distances 1 .. N. *)
Lemma at_cover : forall low high from i, in_range low high from -> in_range low high i ->
  exists k, 1 <= k <= high - low /\ at_ low high from k = i.
Proof.
  intros low high from i Hf Hi. assert (low < high) by (unfold in_range in *; lia).
  pose proof (steps_bound low high from i H).
  destruct (Z.eq_dec (steps_to low high from i) 0) as [E|E].
  - exists (high - low). split; [lia|]. rewrite at_full by assumption.
    rewrite <- (at_steps low high from i Hi). rewrite E. now rewrite at_0.
  - exists (steps_to low high from i). split; [lia|]. now apply at_steps.
Qed.

(** ** Round robin *)
Lemma rr_scan_spec : forall fuel p th low high from k,
  in_range low high from -> 0 <= k < high - low -> high - low - k <= Z.of_nat fuel ->
  exists j, k < j <= high - low /\
    rr_scan fuel p th low high from (at_ low high from k) = Some (at_ low high from j) /\
    (j = high - low \/ ready_thread p th (at_ low high from j)) /\
    (forall i, k < i < j -> ~ ready_thread p th (at_ low high from i)).
Proof.
  induction fuel as [|fuel IH]; intros p th low high from k Hf Hk Hfuel; [lia|].
  assert (Hlh : low < high) by (unfold in_range in *; lia).
  cbn [rr_scan]. rewrite bump_at by assumption.
  destruct (Z.eq_dec (k + 1) (high - low)) as [E|E].
  - rewrite E. rewrite at_full by assumption. rewrite Z.eqb_refl. cbn.
    exists (high - low). rewrite at_full by assumption.
    split; [lia|split; [reflexivity|split; [now left|intros; lia]]].
  - assert (Hne : at_ low high from (k + 1) <> from).
    { intro C. pose proof (steps_at low high from (k+1) Hlh ltac:(lia)) as S1.
      rewrite C in S1. pose proof (steps_at low high from 0 Hlh ltac:(lia)) as S0.
      rewrite at_0 in S0 by assumption. lia. }
    apply Z.eqb_neq in Hne. rewrite Hne. cbn [negb andb].
    destruct (ready_on p th (at_ low high from (k + 1))) eqn:R; cbn [negb].
    + exists (k + 1). split; [lia|split; [reflexivity|split; [right; now apply ready_on_iff|intros; lia]]].
    + destruct (IH p th low high from (k + 1) Hf ltac:(lia) ltac:(lia)) as (j & Hj & Hs & Ho & Hn).
      exists j. split; [lia|split; [exact Hs|split; [exact Ho|]]].
      intros i Hi. destruct (Z.eq_dec i (k + 1)) as [->|]; [now apply ready_on_false|apply Hn; lia].
Qed.

(** The thread from which the search starts. *)
Definition rr_from (idle low prev cur : Z) : Z :=
  if cur =? idle then (if prev =? idle then low else prev) else cur.
Lemma rr_from_range : forall idle low high prev cur, low < high ->
  idle_or_in idle low high prev -> idle_or_in idle low high cur ->
  in_range low high (rr_from idle low prev cur).
Proof.
  intros idle low high prev cur H Hp Hc. unfold rr_from, idle_or_in, in_range in *.
  destruct (Z.eqb_spec cur idle); [destruct (Z.eqb_spec prev idle)|]; lia.
Qed.

Lemma rr_cases : forall p idle th low high prev cur,
  low < high -> idle_or_in idle low high prev -> idle_or_in idle low high cur ->
  exists e, sched_rr p idle th low high prev cur = Some e /\
    ((e = cur /\ cur <> idle /\ ready_thread p th cur /\
      (0 < t_remaining (th cur) \/ t_capacity (th cur) = INFINITE)) \/
     (exists j, 1 <= j <= high - low /\ e = at_ low high (rr_from idle low prev cur) j /\
        ready_thread p th e /\
        forall i, 1 <= i < j -> ~ ready_thread p th (at_ low high (rr_from idle low prev cur) i)) \/
     (e = idle /\ forall i, in_range low high i -> ~ ready_thread p th i)).
Proof.
  intros p idle th low high prev cur Hlh Hp Hc. unfold sched_rr. fold (rr_from idle low prev cur).
  pose proof (rr_from_range idle low high prev cur Hlh Hp Hc) as Hf.
  set (from := rr_from idle low prev cur) in *.
  destruct (((0 <? t_remaining (th cur)) || (t_capacity (th cur) =? INFINITE)) && ready_on p th cur
            && negb (cur =? idle)) eqn:B.
  - exists cur. split; [reflexivity|]. left.
    rewrite !andb_true_iff, negb_true_iff, orb_true_iff, Z.eqb_neq, Z.ltb_lt, Z.eqb_eq, ready_on_iff in B.
    tauto.
  - destruct (rr_scan_spec (S (Z.to_nat (high - low))) p th low high from 0 Hf ltac:(lia) ltac:(lia))
      as (j & Hj & Hs & Ho & Hn).
    rewrite at_0 in Hs by assumption. rewrite Hs.
    destruct (ready_on p th (at_ low high from j)) eqn:R.
    + rewrite andb_false_r. eexists. split; [reflexivity|]. right; left.
      exists j. apply ready_on_iff in R. split; [lia|split; [reflexivity|split; [exact R|]]].
      intros i Hi. apply Hn. lia.
    + apply ready_on_false in R. destruct Ho as [->|Ho]; [|contradiction].
      rewrite at_full by assumption. rewrite Z.eqb_refl. cbn [negb andb].
      exists idle. split; [reflexivity|]. right; right. split; [reflexivity|].
      intros i Hi. destruct (at_cover low high from i Hf Hi) as (k & Hk & <-).
      destruct (Z.eq_dec k (high - low)) as [->|]; [assumption|apply Hn; lia].
Qed.

Lemma rr_sound : forall p idle th low high prev cur,
  low < high -> idle_or_in idle low high prev -> idle_or_in idle low high cur ->
  exists e, sched_rr p idle th low high prev cur = Some e /\ sound_choice p idle low high th e.
Proof.
  intros p idle th low high prev cur Hlh Hp Hc.
  destruct (rr_cases p idle th low high prev cur Hlh Hp Hc) as (e & He & C).
  exists e. split; [assumption|]. unfold sound_choice.
  destruct C as [(-> & Hne & Hr & _)|[(j & Hj & -> & Hr & _)|(-> & Hn)]].
  - left. split; [|assumption]. destruct Hc; [contradiction|assumption].
  - left. split; [now apply at_range|assumption].
  - now right.
Qed.

(** *** Fairness *)
(** One election at which [x] is ready but not elected brings the current thread closer to [x]. *)
Lemma steps_cur : forall low high from, low < high -> steps_to low high from from = 0.
Proof. intros. unfold steps_to. rewrite Z.sub_diag. apply Z.mod_0_l. lia. Qed.

Lemma steps_shift : forall low high from k i, low < high -> in_range low high i ->
  0 <= k <= steps_to low high from i ->
  steps_to low high (at_ low high from k) i = steps_to low high from i - k.
Proof.
  intros low high from k i Hlh Hi Hk. pose proof (steps_bound low high from i Hlh).
  set (d := steps_to low high from i) in *.
  rewrite <- (at_steps low high from i Hi) at 1. fold d.
  unfold steps_to, at_.
  replace (low + (from - low + d) mod (high - low) - (low + (from - low + k) mod (high - low)))
    with ((from - low + d) mod (high - low) - (from - low + k) mod (high - low)) by lia.
  rewrite <- Zminus_mod. replace (from - low + d - (from - low + k)) with (d - k) by lia.
  rewrite Z.mod_small; lia.
Qed.

Lemma rr_progress : forall p idle th low high prev cur e x,
  ~ in_range low high idle ->
  low < high -> idle_or_in idle low high prev -> in_range low high cur -> in_range low high x ->
  t_remaining (th cur) <= 0 -> t_capacity (th cur) <> INFINITE -> ready_thread p th x ->
  sched_rr p idle th low high prev cur = Some e -> e <> x ->
  in_range low high e /\ ready_thread p th e /\
  (cur = x \/ steps_to low high e x < steps_to low high cur x) /\
  (cur = x -> 0 < steps_to low high e x).
Proof.
  intros p idle th low high prev cur e x Hid Hlh Hp Hc Hx Hr Hcap Hrx He Hne.
  destruct (rr_cases p idle th low high prev cur Hlh Hp (or_intror Hc)) as (e' & He' & C).
  rewrite He in He'. injection He' as <-.
  assert (Hf : rr_from idle low prev cur = cur).
  { unfold rr_from. destruct (Z.eqb_spec cur idle); [subst; contradiction|reflexivity]. }
  rewrite Hf in C.
  destruct C as [(-> & _ & _ & [B|B])|[(j & Hj & Hej & Hrd & Hn)|(-> & Hn)]]; [lia|contradiction| |].
  2:{ exfalso. apply (Hn x); assumption. }
  assert (Hxs : exists k, 1 <= k <= high - low /\ at_ low high cur k = x) by now apply at_cover.
  destruct Hxs as (k & Hk & Hkx).
  assert (Hjk : j < k).
  { destruct (Z.lt_ge_cases j k) as [|G]; [assumption|].
    destruct (Z.eq_dec j k) as [->|]; [congruence|].
    exfalso. apply (Hn k); [lia|]. now rewrite Hkx. }
  repeat split.
  - subst e. apply at_range; assumption.
  - subst e. now apply at_range.
  - apply Hrd.
  - apply Hrd.
  - destruct (Z.eq_dec cur x) as [|Hcx]; [now left|right].
    assert (Hd : steps_to low high cur x = k).
    { rewrite <- Hkx. apply steps_at; [assumption|].
      destruct (Z.eq_dec k (high - low)) as [->|]; [|lia].
      rewrite at_full in Hkx by assumption. contradiction. }
    rewrite Hej, steps_shift by (try assumption; lia). lia.
  - intros <-. pose proof (steps_bound low high e cur Hlh).
    destruct (Z.eq_dec (steps_to low high e cur) 0) as [E|]; [|lia].
    exfalso. apply Hne. rewrite <- (at_steps low high e cur Hc), E, at_0; [reflexivity|].
    subst e; apply at_range; assumption.
Qed.

Definition rr (p idle low high : Z) : (Z -> thread) -> Z -> Z -> option Z :=
  fun th prev cur => sched_rr p idle th low high prev cur.

Lemma prev_next : forall idle low high prev cur e,
  idle_or_in idle low high prev -> idle_or_in idle low high cur ->
  idle_or_in idle low high (if (cur =? e) || (cur =? idle) then prev else cur).
Proof. intros. destruct ((cur =? e) || (cur =? idle)); assumption. Qed.

(** While [x] waits, the elected threads are ready threads at decreasing distances from [x]. *)
Lemma rr_distances : forall p idle low high x ths es prev cur,
  ~ in_range low high idle -> low < high ->
  idle_or_in idle low high prev -> in_range low high cur -> in_range low high x ->
  elections (rr p idle low high) idle prev cur ths es -> exhausted cur ths es ->
  (forall th, In th ths -> ready_thread p th x) -> ~ In x es ->
  NoDup es /\
  (forall e, In e es -> in_range low high e /\ 0 < steps_to low high e x /\
     (cur = x \/ steps_to low high e x < steps_to low high cur x)) /\
  (forall th e n, nth_error ths n = Some th -> nth_error es n = Some e -> ready_thread p th e).
Proof.
  intros p idle low high x. induction ths as [|th ths IH]; intros es prev cur Hid Hlh Hp Hc Hx Hel Hex Hr Hni.
  - inversion Hel; subst. split; [constructor|]. split; [intros e []|]. intros th e [|n]; discriminate.
  - inversion Hel as [|prev0 cur0 th0 e ths0 es0 He Hel']; subst.
    cbn [exhausted] in Hex. destruct Hex as (Hrem & Hcap & Hex).
    unfold rr in He.
    destruct (rr_progress p idle th low high prev cur e x Hid Hlh Hp Hc Hx Hrem Hcap
                (Hr th (or_introl eq_refl)) He) as (Hre & Hrde & Hd & Hd').
    { intro C. apply Hni. now left. }
    destruct (IH es0 _ e Hid Hlh (prev_next idle low high prev cur e Hp (or_intror Hc)) Hre Hx Hel' Hex)
      as (Hnd & Hall & Hrest).
    { intros th' Hin. apply Hr. now right. }
    { intro C. apply Hni. now right. }
    assert (Hex0 : e <> x) by (intro C; apply Hni; now left).
    assert (Hpos : 0 < steps_to low high e x).
    { pose proof (steps_bound low high e x Hlh).
      destruct (Z.eq_dec (steps_to low high e x) 0) as [E|]; [|lia].
      exfalso. apply Hex0. rewrite <- (at_steps low high e x Hx), E, at_0; [reflexivity|assumption]. }
    split; [|split].
    + constructor; [|assumption]. intro Hin. destruct (Hall e Hin) as (_ & _ & [C|C]); [contradiction|lia].
    + intros e' [<-|Hin]; [repeat split; try apply Hre; assumption|].
      destruct (Hall e' Hin) as (H1 & H2 & H3). repeat split; try apply H1; try assumption.
      destruct H3 as [C|C]; [contradiction|]. destruct Hd as [|Hd]; [now left|right; lia].
    + intros th' e' [|n] H1 H2; cbn in H1, H2.
      * injection H1 as <-. injection H2 as <-. assumption.
      * eapply Hrest; eassumption.
Qed.

(** ** Static priorities *)
Lemma static_scan_spec : forall fuel p th low high from k mprio best,
  in_range low high from -> 0 <= k < high - low -> high - low - k <= Z.of_nat fuel ->
  (forall i, in_range low high i -> 0 <= t_priority (th i)) ->
  ((mprio = -1 /\ forall i, 0 <= i < k -> ~ ready_thread p th (at_ low high from i)) \/
   exists b, 0 <= b < k /\ best = at_ low high from b /\ ready_thread p th best /\
     mprio = t_priority (th best) /\
     (forall i, 0 <= i < k -> ready_thread p th (at_ low high from i) ->
        t_priority (th (at_ low high from i)) <= mprio /\
        (t_priority (th (at_ low high from i)) = mprio -> b <= i))) ->
  exists mprio' best',
    static_scan fuel p th low high from (at_ low high from k) mprio best = Some (mprio', best') /\
    ((mprio' = -1 /\ forall i, 0 <= i < high - low -> ~ ready_thread p th (at_ low high from i)) \/
     exists b, 0 <= b < high - low /\ best' = at_ low high from b /\ ready_thread p th best' /\
       mprio' = t_priority (th best') /\
       (forall i, 0 <= i < high - low -> ready_thread p th (at_ low high from i) ->
          t_priority (th (at_ low high from i)) <= mprio' /\
          (t_priority (th (at_ low high from i)) = mprio' -> b <= i))).
Proof.
  induction fuel as [|fuel IH]; intros p th low high from k mprio best Hf Hk Hfuel Hpos Hinv; [lia|].
  assert (Hlh : low < high) by (unfold in_range in *; lia).
  cbn [static_scan]. rewrite bump_at by assumption.
  set (i := at_ low high from k).
  assert (Hir : in_range low high i) by now apply at_range.
  set (r := if ready_on p th i && (mprio <? t_priority (th i)) then (t_priority (th i), i) else (mprio, best)).
  assert (Hinv' : (fst r = -1 /\ forall j, 0 <= j < k + 1 -> ~ ready_thread p th (at_ low high from j)) \/
   exists b, 0 <= b < k + 1 /\ snd r = at_ low high from b /\ ready_thread p th (snd r) /\
     fst r = t_priority (th (snd r)) /\
     (forall j, 0 <= j < k + 1 -> ready_thread p th (at_ low high from j) ->
        t_priority (th (at_ low high from j)) <= fst r /\
        (t_priority (th (at_ low high from j)) = fst r -> b <= j))).
  { subst r. destruct (ready_on p th i) eqn:R; cbn [andb].
    - apply ready_on_iff in R. destruct (Z.ltb_spec mprio (t_priority (th i))) as [L|L]; cbn [fst snd].
      + right. exists k. split; [lia|]. split; [reflexivity|]. split; [assumption|]. split; [reflexivity|].
        intros j Hj Hrj. destruct (Z.eq_dec j k) as [->|]; [fold i; lia|].
        destruct Hinv as [(_ & Hn)|(b & Hb & _ & _ & Hm & Hmax)].
        * exfalso. apply (Hn j); [lia|assumption].
        * destruct (Hmax j ltac:(lia) Hrj). lia.
      + destruct Hinv as [(Hm & _)|(b & Hb & E & Hrb & Hm & Hmax)].
        * exfalso. pose proof (Hpos i Hir). lia.
        * right. exists b. split; [lia|]. split; [assumption|]. split; [assumption|]. split; [assumption|].
          intros j Hj Hrj. destruct (Z.eq_dec j k) as [->|]; [fold i; lia|]. apply Hmax; [lia|assumption].
    - apply ready_on_false in R. cbn [fst snd].
      destruct Hinv as [(Hm & Hn)|(b & Hb & E & Hrb & Hm & Hmax)].
      + left. split; [assumption|]. intros j Hj. destruct (Z.eq_dec j k) as [->|]; [assumption|apply Hn; lia].
      + right. exists b. split; [lia|]. split; [assumption|]. split; [assumption|]. split; [assumption|].
        intros j Hj Hrj. destruct (Z.eq_dec j k) as [->|]; [contradiction|]. apply Hmax; [lia|assumption]. }
  clearbody r. destruct r as [m' b']. cbn [fst snd] in Hinv'.
  destruct (Z.eq_dec (k + 1) (high - low)) as [E|E].
  - rewrite E. rewrite at_full by assumption. rewrite Z.eqb_refl.
    exists m', b'. split; [reflexivity|]. rewrite <- E. assumption.
  - assert (Hne : at_ low high from (k + 1) <> from).
    { intro C. pose proof (steps_at low high from (k+1) Hlh ltac:(lia)) as S1.
      rewrite C in S1. rewrite steps_cur in S1 by assumption. lia. }
    apply Z.eqb_neq in Hne. rewrite Hne.
    apply IH; try assumption; lia.
Qed.

(** The thread from which the search starts. *)
Definition static_from (idle low prev cur : Z) : Z :=
  if prev =? idle then low else if cur =? idle then prev else cur.
Lemma static_from_range : forall idle low high prev cur, low < high ->
  idle_or_in idle low high prev -> idle_or_in idle low high cur ->
  in_range low high (static_from idle low prev cur).
Proof.
  intros idle low high prev cur H Hp Hc. unfold static_from, idle_or_in, in_range in *.
  destruct (Z.eqb_spec prev idle); [|destruct (Z.eqb_spec cur idle)]; lia.
Qed.

Lemma static_spec : forall p idle th low high prev cur,
  low < high -> idle_or_in idle low high prev -> idle_or_in idle low high cur ->
  (forall i, in_range low high i -> 0 <= t_priority (th i)) ->
  exists e, sched_static p idle th low high prev cur = Some e /\
    ((in_range low high e /\ ready_thread p th e /\
      forall i, in_range low high i -> ready_thread p th i ->
        t_priority (th i) <= t_priority (th e) /\
        (t_priority (th i) = t_priority (th e) ->
         steps_to low high (static_from idle low prev cur) e
           <= steps_to low high (static_from idle low prev cur) i)) \/
     (e = idle /\ forall i, in_range low high i -> ~ ready_thread p th i)).
Proof.
  intros p idle th low high prev cur Hlh Hp Hc Hpos. unfold sched_static.
  fold (static_from idle low prev cur).
  pose proof (static_from_range idle low high prev cur Hlh Hp Hc) as Hf.
  set (from := static_from idle low prev cur) in *.
  destruct (static_scan_spec (S (Z.to_nat (high - low))) p th low high from 0 (-1) cur Hf
              ltac:(lia) ltac:(lia) Hpos) as (m & b & Hs & C).
  { left. split; [reflexivity|]. intros i Hi. lia. }
  rewrite at_0 in Hs by assumption. rewrite Hs.
  destruct C as [(-> & Hn)|(k & Hk & -> & Hr & -> & Hmax)].
  - exists idle. split; [reflexivity|]. right. split; [reflexivity|].
    intros i Hi. rewrite <- (at_steps low high from i Hi). apply Hn. now apply steps_bound.
  - pose proof (at_range low high from k Hlh) as Hkr. pose proof (Hpos _ Hkr) as H0.
    apply Z.leb_le in H0. rewrite H0.
    eexists. split; [reflexivity|]. left. split; [assumption|]. split; [assumption|].
    intros i Hi Hri. pose proof (steps_bound low high from i Hlh) as Hb.
    destruct (Hmax (steps_to low high from i) Hb) as (H1 & H2).
    { now rewrite at_steps. }
    rewrite at_steps in H1, H2 by assumption. split; [assumption|].
    intro Eq. rewrite steps_at by assumption. apply H2. exact Eq.
Qed.

(** ** RMS *)
Lemma rms_scan_spec : forall fuel p th low high k,
  low < high -> 0 <= k < high - low -> high - low - k <= Z.of_nat fuel ->
  exists j, k < j <= high - low /\
    rms_scan fuel p th low high (at_ low high low k) = Some (at_ low high low j) /\
    (j = high - low \/ ready_thread p th (at_ low high low j)) /\
    (forall i, k < i < j -> ~ ready_thread p th (at_ low high low i)).
Proof.
  intros fuel p th low high k Hlh Hk Hfuel.
  assert (Hlr : in_range low high low) by (unfold in_range; lia).
  destruct (rr_scan_spec fuel p th low high low k Hlr Hk Hfuel) as (j & H). exists j.
  assert (E : forall f e, rms_scan f p th low high e = rr_scan f p th low high low e).
  { induction f as [|f IH]; intro e; cbn; [reflexivity|]. now rewrite IH. }
  rewrite E. exact H.
Qed.

Lemma at_low : forall low high k, low < high -> 0 <= k < high - low -> at_ low high low k = low + k.
Proof. intros. unfold at_. rewrite Z.sub_diag, Z.add_0_l, Z.mod_small; lia. Qed.

(** RMS takes the first ready thread after the first one of the partition, or the first one, or idle. *)
Lemma rms_spec : forall p idle th low high, low < high ->
  exists e, sched_rms p idle th low high = Some e /\
    ((low < e < high /\ ready_thread p th e /\ forall i, low < i < e -> ~ ready_thread p th i) \/
     (e = low /\ ready_thread p th low /\ forall i, low < i < high -> ~ ready_thread p th i) \/
     (e = idle /\ forall i, in_range low high i -> ~ ready_thread p th i)).
Proof.
  intros p idle th low high Hlh. unfold sched_rms.
  assert (Hlr : in_range low high low) by (unfold in_range; lia).
  destruct (rms_scan_spec (S (Z.to_nat (high - low))) p th low high 0 Hlh ltac:(lia) ltac:(lia))
    as (j & Hj & Hs & Ho & Hn).
  rewrite at_0 in Hs by assumption. rewrite Hs.
  destruct (Z.eq_dec j (high - low)) as [->|Hjn].
  - rewrite at_full by assumption. rewrite Z.eqb_refl. cbn [andb].
    assert (Hn' : forall i, low < i < high -> ~ ready_thread p th i).
    { intros i Hi. rewrite <- (Zplus_minus low i). rewrite <- (at_low low high (i - low)) by lia. apply Hn. lia. }
    destruct (ready_on p th low) eqn:R; cbn [negb].
    + apply ready_on_iff in R. exists low. split; [reflexivity|]. right; left. auto.
    + apply ready_on_false in R. exists idle. split; [reflexivity|]. right; right. split; [reflexivity|].
      intros i Hi. destruct (Z.eq_dec i low) as [->|]; [assumption|apply Hn'; unfold in_range in Hi; lia].
  - destruct Ho as [|Ho]; [contradiction|]. rewrite at_low in * by lia.
    destruct (Z.eqb_spec (low + j) low) as [|_]; [lia|]. cbn [andb].
    exists (low + j). split; [reflexivity|]. left. split; [lia|]. split; [assumption|].
    intros i Hi. rewrite <- (Zplus_minus low i). rewrite <- (at_low low high (i - low)) by lia. apply Hn. lia.
Qed.

Lemma rms_sound : forall p idle th low high, low < high ->
  exists e, sched_rms p idle th low high = Some e /\ sound_choice p idle low high th e.
Proof.
  intros p idle th low high Hlh. destruct (rms_spec p idle th low high Hlh) as (e & He & C).
  exists e. split; [assumption|]. unfold sound_choice, in_range.
  destruct C as [(H & Hr & _)|[(-> & Hr & _)|(-> & Hn)]]; [left|left|right]; split; auto; lia.
Qed.
