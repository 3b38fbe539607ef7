(** The rendezvous of the scheduler: invariant, safety and progress. *)
From Verif Require Import Model.Base Model.Smp Spec.SmpSpec Proof.Tac.

(** * Sums over the processors *)

Fixpoint sum (f : Z -> Z) (l : list Z) : Z := match l with [] => 0 | x :: t => f x + sum f t end.

Lemma sum_ext : forall f g l, (forall x, In x l -> f x = g x) -> sum f l = sum g l.
Proof. induction l as [|x t IH]; intros H; cbn; [reflexivity|]. rewrite (H x), IH; cbn; auto. intros; apply H; now right. Qed.

Lemma sum_change : forall f g p l, NoDup l -> In p l -> (forall x, x <> p -> f x = g x) -> sum g l = sum f l + (g p - f p).
Proof.
  induction l as [|x t IH]; intros ND I H; [destruct I|]. inversion ND; subst. cbn.
  destruct (Z.eq_dec x p) as [->|N].
  - rewrite (sum_ext g f t); [lia|]. intros y Hy. symmetry. apply H. intros ->. contradiction.
  - destruct I as [I|I]; [congruence|]. rewrite IH by auto. rewrite (H x N). lia.
Qed.

Lemma sum_le : forall f c l, (forall x, In x l -> f x <= c) -> sum f l <= c * Z.of_nat (length l).
Proof. induction l as [|x t IH]; intros H; cbn [sum length]; [lia|]. specialize (IH (fun y Hy => H y (or_intror Hy))). specialize (H x (or_introl eq_refl)). lia. Qed.

Lemma sum_ge : forall f c l, (forall x, In x l -> c <= f x) -> c * Z.of_nat (length l) <= sum f l.
Proof. induction l as [|x t IH]; intros H; cbn [sum length]; [lia|]. specialize (IH (fun y Hy => H y (or_intror Hy))). specialize (H x (or_introl eq_refl)). lia. Qed.

Definition procs (n : Z) : list Z := map Z.of_nat (seq 0 (Z.to_nat n)).
Definition others (n : Z) : list Z := map Z.of_nat (seq 1 (Z.to_nat (n - 1))).

Lemma in_others : forall n p, In p (others n) <-> 0 < p < n.
Proof.
  intros. unfold others. rewrite in_map_iff. split.
  - intros (x & <- & H). apply in_seq in H. lia.
  - intros H. exists (Z.to_nat p). split; [lia|]. apply in_seq. lia.
Qed.
Lemma others_nodup : forall n, NoDup (others n).
Proof.
  intros. unfold others. generalize 1%nat. generalize (Z.to_nat (n - 1)). induction n0 as [|k IH]; intros a; cbn; constructor.
  - rewrite in_map_iff. intros (x & E & H). apply in_seq in H. lia.
  - apply IH.
Qed.
Lemma others_length : forall n, 1 <= n -> Z.of_nat (length (others n)) = n - 1.
Proof. intros. unfold others. rewrite map_length, seq_length. lia. Qed.

(** If not all indicators are one, the sum is less than the number. *)
Lemma sum_all_one : forall f l, (forall x, In x l -> 0 <= f x <= 1) -> sum f l = Z.of_nat (length l) -> forall x, In x l -> f x = 1.
Proof.
  induction l as [|y t IH]; intros H E x I; [destruct I|]. cbn [sum length] in E.
  assert (B : sum f t <= 1 * Z.of_nat (length t)) by (apply sum_le; intros z Hz; apply H; now right).
  pose proof (H y (or_introl eq_refl)). destruct I as [->|I]; [lia|]. apply IH; [intros; apply H; now right|lia|exact I].
Qed.

(** * The invariant *)

Definition b2 (b : bool) : Z := if b then 1 else 0.
Definition is_w1 (c : rv_pc) : bool := match c with JWait1 => true | _ => false end.
Definition is_w2 (c : rv_pc) : bool := match c with JWait2 => true | _ => false end.

Definition in_w1 (s : rv_state) (p : Z) : Z := b2 (is_w1 (rv_at s p)).
Definition in_w2 (s : rv_state) (p : Z) : Z := b2 (is_w2 (rv_at s p)).

(** What each phase of the initiating processor implies for another processor. *)
Definition other_ok (src c : rv_pc) (pend : bool) : Prop :=
  match src with
  | RIdle | RSetFence | RSend => (c = JOut \/ c = JWait2) /\ pend = false
  | RAssert1 | RWait1 => ((c = JOut \/ c = JWait2) /\ pend = true) \/ ((c = JAssert1 \/ c = JInc1 \/ c = JWait1) /\ pend = false)
  | RSwitch | RAssert2 | RSetBarr | RAssert3 | RClearFence => c = JWait1 /\ pend = false
  | RAssert4 | RWait2 => (c = JWait1 \/ c = JAssert2 \/ c = JInc2 \/ c = JWait2) /\ pend = false
  | RAssert5 | RClearBarr => c = JWait2 /\ pend = false
  | _ => False
  end.

Definition fence_ok (n : Z) (s : rv_state) : Prop :=
  match rv_at s 0 with
  | RIdle | RSetFence => rv_fence s = 0
  | RSend => rv_fence s = 1
  | RAssert1 | RWait1 => rv_fence s = 1 + sum (in_w1 s) (others n)
  | RSwitch | RAssert2 | RSetBarr | RAssert3 | RClearFence => rv_fence s = n
  | RAssert4 | RWait2 | RAssert5 | RClearBarr => rv_fence s = 0
  | _ => False
  end.
Definition barr_ok (n : Z) (s : rv_state) : Prop :=
  match rv_at s 0 with
  | RIdle | RSetFence | RSend | RAssert1 | RWait1 | RSwitch | RAssert2 | RSetBarr => rv_barr s = 0
  | RAssert3 | RClearFence => rv_barr s = 1
  | RAssert4 | RWait2 => rv_barr s = 1 + sum (in_w2 s) (others n)
  | RAssert5 | RClearBarr => rv_barr s = n
  | _ => False
  end.

(** The first half of a round: the initiator has not yet seen everybody. *)
Definition early (c : rv_pc) : bool :=
  match c with RIdle | RSetFence | RSend | RAssert1 | RWait1 => true | _ => false end.
Definition started (c : rv_pc) : bool := match c with RIdle | RSetFence => false | _ => true end.

Record rv_ok (n : Z) (s : rv_state) (ev : list rv_event) : Prop := {
  ro_other : forall p, 0 < p < n -> other_ok (rv_at s 0) (rv_at s p) (rv_pend s p);
  ro_fence : fence_ok n s;
  ro_barr : barr_ok n s;
  ro_pend0 : rv_pend s 0 = false;
  ro_src : entries 0 ev = leaves 0 ev + b2 (started (rv_at s 0));
  ro_leaves : forall p, 0 < p < n -> leaves p ev = leaves 0 ev - b2 (early (rv_at s 0) && is_w2 (rv_at s p));
  ro_entries : forall p, 0 < p < n -> entries p ev = leaves 0 ev + b2 (negb (early (rv_at s 0)) || is_w1 (rv_at s p))
}.

Lemma rv_start_ok : forall n, 1 <= n -> rv_ok n rv_start [].
Proof.
  intros n N. constructor; try reflexivity; intros p Hp; cbn; destruct (Z.eqb_spec p 0); try lia; cbn; auto.
Qed.

Lemma entries_app : forall p a b, entries p (a ++ b) = entries p a + entries p b.
Proof. intros. unfold entries. rewrite filter_app, app_length. lia. Qed.
Lemma leaves_app : forall p a b, leaves p (a ++ b) = leaves p a + leaves p b.
Proof. intros. unfold leaves. rewrite filter_app, app_length. lia. Qed.
Lemma entries_one : forall p e, entries p [e] = b2 (is_enter p e).
Proof. intros. unfold entries. cbn. now destruct (is_enter p e). Qed.
Lemma leaves_one : forall p e, leaves p [e] = b2 (is_leave p e).
Proof. intros. unfold leaves. cbn. now destruct (is_leave p e). Qed.
Lemma entries_nil : forall p, entries p [] = 0. Proof. reflexivity. Qed.
Lemma leaves_nil : forall p, leaves p [] = 0. Proof. reflexivity. Qed.

Lemma incw_small : forall x, 0 <= x < 65535 -> incw x = x + 1.
Proof. intros x H. unfold incw, u16. change (2 ^ 16) with 65536. lia. Qed.

Lemma w1_bound : forall n s, 1 <= n -> 0 <= sum (in_w1 s) (others n) <= n - 1.
Proof.
  intros n s N. pose proof (others_length n N) as L.
  assert (A : sum (in_w1 s) (others n) <= 1 * Z.of_nat (length (others n))) by (apply sum_le; intros; unfold in_w1, b2; destruct (is_w1 _); lia).
  assert (B : 0 * Z.of_nat (length (others n)) <= sum (in_w1 s) (others n)) by (apply sum_ge; intros; unfold in_w1, b2; destruct (is_w1 _); lia).
  lia.
Qed.
Lemma w2_bound : forall n s, 1 <= n -> 0 <= sum (in_w2 s) (others n) <= n - 1.
Proof.
  intros n s N. pose proof (others_length n N) as L.
  assert (A : sum (in_w2 s) (others n) <= 1 * Z.of_nat (length (others n))) by (apply sum_le; intros; unfold in_w2, b2; destruct (is_w2 _); lia).
  assert (B : 0 * Z.of_nat (length (others n)) <= sum (in_w2 s) (others n)) by (apply sum_ge; intros; unfold in_w2, b2; destruct (is_w2 _); lia).
  lia.
Qed.

Lemma all_w1 : forall n s, 1 <= n -> 1 + sum (in_w1 s) (others n) = n -> forall p, 0 < p < n -> rv_at s p = JWait1.
Proof.
  intros n s N E p Hp. pose proof (others_length n N) as L.
  assert (X : in_w1 s p = 1).
  { apply (sum_all_one (in_w1 s) (others n)); [|lia|now apply in_others].
    intros x _. unfold in_w1, b2. destruct (is_w1 _); lia. }
  unfold in_w1, b2 in X. destruct (rv_at s p); cbn in X; try discriminate; reflexivity.
Qed.
Lemma all_w2 : forall n s, 1 <= n -> 1 + sum (in_w2 s) (others n) = n -> forall p, 0 < p < n -> rv_at s p = JWait2.
Proof.
  intros n s N E p Hp. pose proof (others_length n N) as L.
  assert (X : in_w2 s p = 1).
  { apply (sum_all_one (in_w2 s) (others n)); [|lia|now apply in_others].
    intros x _. unfold in_w2, b2. destruct (is_w2 _); lia. }
  unfold in_w2, b2 in X. destruct (rv_at s p); cbn in X; try discriminate; reflexivity.
Qed.

(** * Steps keep it *)

Lemma sum_w1_src : forall n s f b c pd, sum (in_w1 (mkRv f b (upd (rv_at s) 0 c) pd)) (others n) = sum (in_w1 s) (others n).
Proof.
  intros. apply sum_ext. intros x Hx. apply in_others in Hx. unfold in_w1; cbn [rv_at]. unfold upd.
  destruct (Z.eqb_spec x 0); [lia|reflexivity].
Qed.
Lemma sum_w2_src : forall n s f b c pd, sum (in_w2 (mkRv f b (upd (rv_at s) 0 c) pd)) (others n) = sum (in_w2 s) (others n).
Proof.
  intros. apply sum_ext. intros x Hx. apply in_others in Hx. unfold in_w2; cbn [rv_at]. unfold upd.
  destruct (Z.eqb_spec x 0); [lia|reflexivity].
Qed.
Lemma sum_w1_other : forall n s f b c pd p, 0 < p < n ->
  sum (in_w1 (mkRv f b (upd (rv_at s) p c) pd)) (others n) = sum (in_w1 s) (others n) + (b2 (is_w1 c) - b2 (is_w1 (rv_at s p))).
Proof.
  intros. rewrite (sum_change (in_w1 s) _ p); [|apply others_nodup|now apply in_others|].
  - unfold in_w1; cbn [rv_at]. rewrite upd_same. reflexivity.
  - intros x Hx. unfold in_w1; cbn [rv_at]. now rewrite upd_other.
Qed.
Lemma sum_w2_other : forall n s f b c pd p, 0 < p < n ->
  sum (in_w2 (mkRv f b (upd (rv_at s) p c) pd)) (others n) = sum (in_w2 s) (others n) + (b2 (is_w2 c) - b2 (is_w2 (rv_at s p))).
Proof.
  intros. rewrite (sum_change (in_w2 s) _ p); [|apply others_nodup|now apply in_others|].
  - unfold in_w2; cbn [rv_at]. rewrite upd_same. reflexivity.
  - intros x Hx. unfold in_w2; cbn [rv_at]. now rewrite upd_other.
Qed.

Lemma sum_w1_zero : forall n s, (forall p, 0 < p < n -> is_w1 (rv_at s p) = false) -> sum (in_w1 s) (others n) = 0.
Proof.
  intros n s H. rewrite (sum_ext _ (fun _ => 0)); [induction (others n); cbn; lia|].
  intros x Hx. apply in_others in Hx. unfold in_w1. now rewrite H.
Qed.
Lemma sum_w2_zero : forall n s, (forall p, 0 < p < n -> is_w2 (rv_at s p) = false) -> sum (in_w2 s) (others n) = 0.
Proof.
  intros n s H. rewrite (sum_ext _ (fun _ => 0)); [induction (others n); cbn; lia|].
  intros x Hx. apply in_others in Hx. unfold in_w2. now rewrite H.
Qed.

Ltac ev_simpl := rewrite ?entries_app, ?leaves_app, ?entries_one, ?leaves_one, ?entries_nil, ?leaves_nil; cbn [is_enter is_leave].

(** The initiator. *)
Lemma src_frame : forall n s ev f b c pd e, rv_ok n s ev ->
  (forall p, 0 < p < n -> other_ok (rv_at s 0) (rv_at s p) (rv_pend s p) -> other_ok c (rv_at s p) (pd p)) ->
  fence_ok n (mkRv f b (upd (rv_at s) 0 c) pd) -> barr_ok n (mkRv f b (upd (rv_at s) 0 c) pd) -> pd 0 = false ->
  entries 0 e - leaves 0 e = b2 (started c) - b2 (started (rv_at s 0)) ->
  (forall p, 0 < p < n -> entries p e = 0 /\ leaves p e = 0) ->
  (forall p, 0 < p < n -> other_ok (rv_at s 0) (rv_at s p) (rv_pend s p) ->
     leaves 0 e = b2 (early c && is_w2 (rv_at s p)) - b2 (early (rv_at s 0) && is_w2 (rv_at s p))) ->
  (forall p, 0 < p < n -> other_ok (rv_at s 0) (rv_at s p) (rv_pend s p) ->
     leaves 0 e = b2 (negb (early (rv_at s 0)) || is_w1 (rv_at s p)) - b2 (negb (early c) || is_w1 (rv_at s p))) ->
  rv_ok n (mkRv f b (upd (rv_at s) 0 c) pd) (ev ++ e).
Proof.
  intros n s ev f b c pd e [A1 A2 A3 A4 A5 A6 A7] H1 H2 H3 H4 H5 H6 H7 H8.
  assert (U : forall p, 0 < p -> upd (rv_at s) 0 c p = rv_at s p) by (intros; apply upd_other; lia).
  constructor; cbn [rv_at rv_pend]; try assumption; rewrite ?upd_same.
  - intros p Hp. rewrite U by lia. apply H1; auto.
  - ev_simpl. lia.
  - intros p Hp. rewrite U by lia. ev_simpl. rewrite (A6 p Hp). specialize (H6 p Hp). specialize (H7 p Hp (A1 p Hp)). lia.
  - intros p Hp. rewrite U by lia. ev_simpl. rewrite (A7 p Hp). specialize (H6 p Hp). specialize (H8 p Hp (A1 p Hp)). lia.
Qed.

Lemma rv_step_src : forall n s ev, 1 <= n < 65536 -> rv_ok n s ev ->
  exists s' e, rv_step n 0 s = Some (s', e) /\ rv_ok n s' (ev ++ e).
Proof.
  intros n s ev N K. pose proof K as [A1 A2 A3 A4 A5 A6 A7]. unfold fence_ok, barr_ok in A2, A3.
  assert (Z1 : rv_at s 0 = RSend -> sum (in_w1 s) (others n) = 0).
  { intros E. apply sum_w1_zero. intros p Hp. specialize (A1 p Hp). rewrite E in A1. destruct A1 as [[-> | ->] _]; reflexivity. }
  assert (Z2 : rv_at s 0 = RClearFence -> sum (in_w2 s) (others n) = 0).
  { intros E. apply sum_w2_zero. intros p Hp. specialize (A1 p Hp). rewrite E in A1. destruct A1 as [-> _]; reflexivity. }
  pose proof (w1_bound n s ltac:(lia)) as B1. pose proof (w2_bound n s ltac:(lia)) as B2.
  unfold rv_step. destruct (rv_at s 0) eqn:E; try (exfalso; exact A2).
  all: try (destruct (Z.ltb_spec 0 (rv_fence s)); [|exfalso; lia]).
  all: try (destruct (Z.ltb_spec 0 (rv_barr s)); [|exfalso; lia]).
  all: try (rewrite A2; rewrite Z.eqb_refl).
  all: try (rewrite A3; rewrite Z.eqb_refl).
  all: try (match goal with |- context [if ?x =? ?m then _ else _] => destruct (Z.eqb_spec x m) as [W|W] end;
            [|exists s, []; split; [reflexivity|rewrite app_nil_r; exact K]]).
  all: do 2 eexists; (split; [reflexivity|]).
  all: apply src_frame; [exact K|..]; rewrite ?E; cbn [rv_pend other_ok];
    [intros p Hp HO; try exact HO
    |unfold fence_ok; cbn [rv_at rv_fence]; rewrite upd_same; rewrite ?sum_w1_src; try lia
    |unfold barr_ok; cbn [rv_at rv_barr]; rewrite upd_same; rewrite ?sum_w2_src; try lia
    |try exact A4
    |ev_simpl; cbn; try lia
    |intros p Hp; ev_simpl; try (destruct (Z.eqb_spec 0 p); [lia|]); split; reflexivity
    |intros p Hp HO; cbn [other_ok] in HO; ev_simpl; cbn [early andb negb orb]
    |intros p Hp HO; cbn [other_ok] in HO; ev_simpl; cbn [early andb negb orb]].
  all: try reflexivity.
  all: try (apply Z2; reflexivity). all: try (rewrite Z1 by reflexivity; lia). all: try (rewrite Z2 by reflexivity; lia).
  all: try (destruct (Z.eqb_spec p 0); [lia|]); try tauto.
  all: try (rewrite A2 in W; rewrite (all_w1 n s ltac:(lia) W p Hp) in *; cbn; intuition congruence).
  all: try (rewrite A3 in W; rewrite (all_w2 n s ltac:(lia) W p Hp) in *; cbn; intuition congruence).
  all: try (destruct HO as [-> _]; cbn; auto; fail).
  all: try (destruct HO as [HO ->]; cbn; auto; fail).
  all: try (destruct HO as [[-> | [-> | [-> | ->]]] _]; reflexivity).
  all: try (destruct HO as [[-> | ->] _]; reflexivity).
  all: try (destruct HO as [[[-> | ->] _]|[[-> | [-> | ->]] _]]; reflexivity).
Qed.

(** The others. *)
Lemma other_frame : forall n s ev f b c pd e p, 0 < p < n -> rv_ok n s ev ->
  other_ok (rv_at s 0) c (pd p) -> (forall q, q <> p -> pd q = rv_pend s q) ->
  fence_ok n (mkRv f b (upd (rv_at s) p c) pd) -> barr_ok n (mkRv f b (upd (rv_at s) p c) pd) ->
  (forall q, q <> p -> entries q e = 0 /\ leaves q e = 0) ->
  leaves p e = b2 (early (rv_at s 0) && is_w2 (rv_at s p)) - b2 (early (rv_at s 0) && is_w2 c) ->
  entries p e = b2 (negb (early (rv_at s 0)) || is_w1 c) - b2 (negb (early (rv_at s 0)) || is_w1 (rv_at s p)) ->
  rv_ok n (mkRv f b (upd (rv_at s) p c) pd) (ev ++ e).
Proof.
  intros n s ev f b c pd e p Hp [A1 A2 A3 A4 A5 A6 A7] H1 H2 H3 H4 H5 H6 H7.
  assert (U0 : upd (rv_at s) p c 0 = rv_at s 0) by (apply upd_other; lia).
  pose proof (H5 0 ltac:(lia)) as [E0 L0].
  constructor; cbn [rv_at rv_pend]; try assumption; rewrite ?U0.
  - intros q Hq. destruct (Z.eq_dec q p) as [->|Nq]; [now rewrite upd_same|]. rewrite upd_other by exact Nq. rewrite H2 by exact Nq. auto.
  - rewrite H2 by lia. exact A4.
  - ev_simpl. lia.
  - intros q Hq. ev_simpl. rewrite (A6 q Hq). destruct (Z.eq_dec q p) as [->|Nq]; [rewrite upd_same; lia|].
    rewrite upd_other by exact Nq. destruct (H5 q Nq). lia.
  - intros q Hq. ev_simpl. rewrite (A7 q Hq). destruct (Z.eq_dec q p) as [->|Nq]; [rewrite upd_same; lia|].
    rewrite upd_other by exact Nq. destruct (H5 q Nq). lia.
Qed.

Lemma upd_id : forall (A : Type) (f : Z -> A) p q, upd f p (f p) q = f q.
Proof. intros. unfold upd. destruct (Z.eqb_spec q p) as [->|]; reflexivity. Qed.

Lemma rv_step_other : forall n s ev p, 1 <= n < 65536 -> 0 < p < n -> rv_ok n s ev ->
  exists s' e, rv_step n p s = Some (s', e) /\ rv_ok n s' (ev ++ e).
Proof.
  intros n s ev p N Hp K. pose proof K as [A1 A2 A3 A4 A5 A6 A7]. unfold fence_ok, barr_ok in A2, A3.
  specialize (A1 p Hp). pose proof (w1_bound n s ltac:(lia)) as B1. pose proof (w2_bound n s ltac:(lia)) as B2.
  assert (C1 : rv_at s p <> JWait1 -> 1 + sum (in_w1 s) (others n) <> n).
  { intros X Y. apply X. now apply (all_w1 n s). }
  assert (C2 : rv_at s p <> JWait2 -> 1 + sum (in_w2 s) (others n) <> n).
  { intros X Y. apply X. now apply (all_w2 n s). }
  unfold rv_step. destruct (rv_at s p) eqn:P; destruct (rv_at s 0) eqn:E; cbn [other_ok] in A1;
    try (exfalso; clear - A1; intuition discriminate).
  all: try (destruct (rv_pend s p) eqn:Pd; [|exists s, []; split; [reflexivity|rewrite app_nil_r; exact K]]).
  all: try (exfalso; clear - A1; intuition discriminate).
  all: try (destruct (Z.ltb_spec 0 (rv_fence s)); [|exfalso; lia]).
  all: try (destruct (Z.ltb_spec 0 (rv_barr s)); [|exfalso; lia]).
  all: try (match goal with |- context [if ?x =? ?m then _ else _] => destruct (Z.eqb_spec x m) as [W|W] end;
            [|exists s, []; split; [reflexivity|rewrite app_nil_r; exact K]]).
  all: try (exfalso; lia).
  all: try (rewrite incw_small by lia).
  all: do 2 eexists; (split; [reflexivity|]).
  all: apply other_frame; [exact Hp|exact K|..]; rewrite ?E, ?P; cbn [rv_pend other_ok];
    [rewrite ?upd_same; try tauto
    |intros q Hq; rewrite ?upd_other by exact Hq; reflexivity
    |unfold fence_ok; cbn [rv_at rv_fence]; rewrite upd_other by lia; rewrite E; rewrite ?sum_w1_other by exact Hp; rewrite ?P; cbn [is_w1 b2]; try lia
    |unfold barr_ok; cbn [rv_at rv_barr]; rewrite upd_other by lia; rewrite E; rewrite ?sum_w2_other by exact Hp; rewrite ?P; cbn [is_w2 b2]; try lia
    |intros q Hq; ev_simpl; try (destruct (Z.eqb_spec p q); [congruence|]); split; reflexivity
    |ev_simpl; rewrite ?Z.eqb_refl; try reflexivity
    |ev_simpl; rewrite ?Z.eqb_refl; try reflexivity].
  all: try (rewrite incw_small by (try specialize (C1 ltac:(discriminate)); try specialize (C2 ltac:(discriminate)); lia); lia).
  all: clear - A1; intuition (try discriminate; auto).
Qed.

Lemma rv_step_ok : forall n s ev p, 1 <= n < 65536 -> 0 <= p < n -> rv_ok n s ev ->
  exists s' e, rv_step n p s = Some (s', e) /\ rv_ok n s' (ev ++ e).
Proof.
  intros n s ev p N Hp K. destruct (Z.eq_dec p 0) as [->|Np]; [now apply rv_step_src|apply rv_step_other; [exact N|lia|exact K]].
Qed.

Lemma rv_run_ok : forall n sched s ev, 1 <= n < 65536 -> valid_sched n sched -> rv_ok n s ev ->
  exists s' e, rv_run n sched s = Some (s', e) /\ rv_ok n s' (ev ++ e).
Proof.
  induction sched as [|p t IH]; intros s ev N V K; cbn [rv_run].
  - exists s, []. rewrite app_nil_r. auto.
  - inversion V; subst. destruct (rv_step_ok n s ev p N ltac:(assumption) K) as (s1 & e1 & E1 & K1). rewrite E1.
    destruct (IH s1 (ev ++ e1) N ltac:(assumption) K1) as (s2 & e2 & E2 & K2). rewrite E2.
    exists s2, (e1 ++ e2). rewrite app_assoc. auto.
Qed.

(** * Progress *)

Definition waits (n p : Z) (s : rv_state) : bool :=
  match rv_at s p with
  | RWait1 => negb (rv_fence s =? n)
  | RWait2 => negb (rv_barr s =? n)
  | JOut => negb (rv_pend s p)
  | JWait1 => negb (rv_fence s =? 0)
  | JWait2 => negb (rv_barr s =? 0)
  | _ => false
  end.

Definition num (c : rv_pc) : Z :=
  match c with
  | RIdle => 0 | RSetFence => 1 | RSend => 2 | RAssert1 => 3 | RWait1 => 4 | RSwitch => 5 | RAssert2 => 6 | RSetBarr => 7
  | RAssert3 => 8 | RClearFence => 9 | RAssert4 => 10 | RWait2 => 11 | RAssert5 => 12 | RClearBarr => 13
  | JOut => 0 | JAssert1 => 1 | JInc1 => 2 | JWait1 => 3 | JAssert2 => 4 | JInc2 => 5 | JWait2 => 6
  end.
Definition turns (s : rv_state) (ev : list rv_event) (p : Z) : Z := 7 * leaves p ev + num (rv_at s p).
Definition total (n : Z) (s : rv_state) (ev : list rv_event) : Z :=
  14 * leaves 0 ev + num (rv_at s 0) + sum (turns s ev) (others n).

Lemma can_move : forall n s ev, 1 <= n -> rv_ok n s ev -> exists p, 0 <= p < n /\ waits n p s = false.
Proof.
  intros n s ev N [A1 A2 A3 A4 A5 A6 A7]. unfold fence_ok, barr_ok in A2, A3.
  destruct (waits n 0 s) eqn:W; [|exists 0; split; [lia|exact W]].
  unfold waits in W. pose proof (others_length n ltac:(lia)) as L.
  destruct (rv_at s 0) eqn:E; try discriminate W; try contradiction.
  - (* someone has not joined the fence *)
    destruct (existsb (fun p => negb (is_w1 (rv_at s p))) (others n)) eqn:X.
    + apply existsb_exists in X as (p & Ip & Jp). apply in_others in Ip. exists p. split; [lia|]. specialize (A1 p Ip).
      cbn [other_ok] in A1. unfold waits. rewrite A3.
      destruct A1 as [[[C | C] D]|[[C | [C | C]] D]]; rewrite C in *; cbn in *; try reflexivity; try discriminate Jp. now rewrite D.
    + exfalso. assert (Y : sum (in_w1 s) (others n) = n - 1).
      { rewrite <- L. rewrite (sum_ext _ (fun _ => 1)); [clear; induction (others n); cbn [sum length]; lia|].
        intros x Hx. unfold in_w1. destruct (is_w1 (rv_at s x)) eqn:G; [reflexivity|]. exfalso.
        assert (X2 : existsb (fun p => negb (is_w1 (rv_at s p))) (others n) = true)
          by (apply existsb_exists; exists x; split; [exact Hx|now rewrite G]). rewrite X in X2. discriminate X2. }
      apply negb_true_iff, Z.eqb_neq in W. lia.
  - destruct (existsb (fun p => negb (is_w2 (rv_at s p))) (others n)) eqn:X.
    + apply existsb_exists in X as (p & Ip & Jp). apply in_others in Ip. exists p. split; [lia|]. specialize (A1 p Ip).
      cbn [other_ok] in A1. unfold waits. rewrite A2.
      destruct A1 as [[C | [C | [C | C]]] D]; rewrite C in *; cbn in *; try reflexivity; try discriminate Jp.
    + exfalso. assert (Y : sum (in_w2 s) (others n) = n - 1).
      { rewrite <- L. rewrite (sum_ext _ (fun _ => 1)); [clear; induction (others n); cbn [sum length]; lia|].
        intros x Hx. unfold in_w2. destruct (is_w2 (rv_at s x)) eqn:G; [reflexivity|]. exfalso.
        assert (X2 : existsb (fun p => negb (is_w2 (rv_at s p))) (others n) = true)
          by (apply existsb_exists; exists x; split; [exact Hx|now rewrite G]). rewrite X in X2. discriminate X2. }
      apply negb_true_iff, Z.eqb_neq in W. lia.
Qed.

(** Who can move still can after a step of somebody else. *)
Lemma stays_able : forall n s ev p q s' e, 1 <= n < 65536 -> rv_ok n s ev -> 0 <= p < n -> 0 <= q < n -> p <> q ->
  waits n p s = false -> rv_step n q s = Some (s', e) -> waits n p s' = false.
Proof.
  intros n s ev p q s' e N [A1 A2 A3 A4 A5 A6 A7] Hp Hq D W E. unfold fence_ok, barr_ok in A2, A3.
  pose proof (w1_bound n s ltac:(lia)) as B1. pose proof (w2_bound n s ltac:(lia)) as B2.
  assert (C1 : 1 + sum (in_w1 s) (others n) = n -> 0 < q -> rv_at s q = JWait1) by (intros X Y; apply (all_w1 n s); [lia|exact X|lia]).
  assert (C2 : 1 + sum (in_w2 s) (others n) = n -> 0 < q -> rv_at s q = JWait2) by (intros X Y; apply (all_w2 n s); [lia|exact X|lia]).
  unfold rv_step in E. destruct (Z.eq_dec q 0) as [->|Nq].
  - pose proof (A1 p ltac:(lia)) as O. destruct (rv_at s 0) eqn:S0; try contradiction; cbn [other_ok] in O.
    all: repeat (match type of E with context [if ?c then _ else _] => destruct c end; try discriminate E).
    all: inversion E; subst; clear E; try exact W; unfold waits in *; cbn [rv_at rv_fence rv_barr rv_pend] in *; rewrite upd_other by exact D.
    all: try exact W.
    all: destruct (rv_at s p); try reflexivity; try exact W; try (exfalso; clear - O; intuition discriminate).
    all: try (now destruct (Z.eqb_spec p 0)).
  - pose proof (A1 q ltac:(lia)) as O.
    destruct (rv_at s q) eqn:Sq; try (destruct (rv_at s 0); cbn [other_ok] in O; exfalso; clear - O; intuition discriminate).
    all: repeat (match type of E with context [if ?c then _ else _] => destruct c end; try discriminate E).
    all: inversion E; subst; clear E; try exact W; unfold waits in *; cbn [rv_at rv_fence rv_barr rv_pend] in *; rewrite ?upd_other by exact D.
    all: try exact W.
    all: destruct (Z.eq_dec p 0) as [->|Np];
      [destruct (rv_at s 0); cbn [other_ok] in O; try reflexivity; try exact W; try (exfalso; clear - O; intuition discriminate)
      |pose proof (A1 p ltac:(lia)) as O2; destruct (rv_at s 0); cbn [other_ok] in O, O2; try (exfalso; clear - O; intuition discriminate)].
    all: try (apply negb_false_iff, Z.eqb_eq in W; exfalso; assert (X : JInc1 = JWait1) by (apply C1; lia); discriminate X).
    all: try (apply negb_false_iff, Z.eqb_eq in W; exfalso; assert (X : JInc2 = JWait2) by (apply C2; lia); discriminate X).
    all: destruct (rv_at s p) eqn:Sp; try reflexivity; try exact W; try (exfalso; clear - O2; intuition discriminate).
    all: try (apply negb_false_iff, Z.eqb_eq in W; exfalso; lia).
Qed.

Lemma step_waits : forall n s q, waits n q s = true -> rv_step n q s = Some (s, []).
Proof.
  intros n s q W. unfold waits in W. unfold rv_step. destruct (rv_at s q); try discriminate W; apply negb_true_iff in W; rewrite W; reflexivity.
Qed.

(** A step that is not a wait advances one position; leaving starts the next round. *)
Lemma step_moves : forall n s q s' e, waits n q s = false -> rv_step n q s = Some (s', e) ->
  exists c, rv_at s' = upd (rv_at s) q c /\
    (num c = num (rv_at s q) + 1 /\ leaves q e = 0 \/
     num c = 0 /\ leaves q e = 1 /\ (rv_at s q = RClearBarr \/ rv_at s q = JWait2)) /\
    forall p, p <> q -> leaves p e = 0.
Proof.
  intros n s q s' e W E. unfold waits in W. unfold rv_step in E. destruct (rv_at s q) eqn:A; try (apply negb_false_iff in W; rewrite W in E);
    repeat (match type of E with context [if ?c then _ else _] => destruct c end; try discriminate E);
    inversion E; subst; clear E; cbn [rv_at]; eexists; (split; [reflexivity|]); (split; [|intros p Hp; ev_simpl; try (destruct (Z.eqb_spec q p); [congruence|]); reflexivity]);
    ev_simpl; rewrite ?Z.eqb_refl; cbn; lia || auto.
Qed.

Lemma step_total : forall n s ev q s' e, 1 <= n -> 0 <= q < n -> rv_ok n s ev -> rv_step n q s = Some (s', e) ->
  total n s' (ev ++ e) = total n s ev + b2 (negb (waits n q s)).
Proof.
  intros n s ev q s' e N Hq K E. destruct (waits n q s) eqn:W.
  - rewrite (step_waits n s q W) in E. inversion E; subst. rewrite app_nil_r. cbn. lia.
  - destruct (step_moves n s q s' e W E) as (c & A & M & L). unfold total. cbn [negb b2].
    pose proof K as [A1 A2 _ _ _ _ _]. unfold fence_ok in A2.
    destruct (Z.eq_dec q 0) as [->|Nq].
    + rewrite (sum_ext (turns s' (ev ++ e)) (turns s ev)).
      2:{ intros x Hx. apply in_others in Hx. unfold turns. rewrite leaves_app, (L x), A, upd_other by lia. lia. }
      rewrite A, upd_same, leaves_app. destruct M as [[M1 M2]|[M1 [M2 [M3|M3]]]]; rewrite ?M3 in *; cbn [num] in *; lia.
    + rewrite (sum_change (turns s ev) (turns s' (ev ++ e)) q); [|apply others_nodup|apply in_others; lia|].
      2:{ intros x Hx. unfold turns. rewrite leaves_app, (L x), A, upd_other by assumption. lia. }
      unfold turns. rewrite A, upd_same, upd_other by lia. rewrite !leaves_app, (L 0) by lia.
      destruct M as [[M1 M2]|[M1 [M2 [M3|M3]]]]; rewrite ?M3 in *; cbn [num] in *; try lia.
      exfalso. specialize (A1 q ltac:(lia)). rewrite M3 in A1. clear - A1. destruct (rv_at s 0); cbn in A1; intuition discriminate.
Qed.

Lemma run_total_mono : forall n sched s ev s' e, 1 <= n < 65536 -> valid_sched n sched -> rv_ok n s ev ->
  rv_run n sched s = Some (s', e) -> total n s ev <= total n s' (ev ++ e).
Proof.
  induction sched as [|q t IH]; intros s ev s' e N V K E; cbn [rv_run] in E.
  - inversion E; subst. rewrite app_nil_r. lia.
  - inversion V; subst. destruct (rv_step_ok n s ev q N ltac:(assumption) K) as (s1 & e1 & E1 & K1). rewrite E1 in E.
    destruct (rv_run n t s1) as [[s2 e2]|] eqn:E2; [|discriminate]. inversion E; subst.
    pose proof (step_total n s ev q s1 e1 ltac:(lia) ltac:(assumption) K E1) as T.
    specialize (IH s1 (ev ++ e1) s' e2 N ltac:(assumption) K1 E2). rewrite app_assoc.
    destruct (waits n q s); cbn [negb b2] in T; lia.
Qed.

(** A round in which everybody has a turn advances somebody. *)
Lemma run_advances : forall n p sched s ev s' e, 1 <= n < 65536 -> valid_sched n sched -> rv_ok n s ev ->
  0 <= p < n -> waits n p s = false -> In p sched ->
  rv_run n sched s = Some (s', e) -> total n s ev < total n s' (ev ++ e).
Proof.
  induction sched as [|q t IH]; intros s ev s' e N V K Hp W I E; [destruct I|]. cbn [rv_run] in E.
  inversion V; subst. destruct (rv_step_ok n s ev q N ltac:(assumption) K) as (s1 & e1 & E1 & K1). rewrite E1 in E.
  destruct (rv_run n t s1) as [[s2 e2]|] eqn:E2; [|discriminate]. inversion E; subst.
  pose proof (step_total n s ev q s1 e1 ltac:(lia) ltac:(assumption) K E1) as T.
  pose proof (run_total_mono n t s1 (ev ++ e1) s' e2 N ltac:(assumption) K1 E2) as M. rewrite app_assoc.
  destruct (Z.eq_dec q p) as [->|Nq]; [rewrite W in T; cbn [negb b2] in T; lia|].
  destruct I as [I|I]; [congruence|].
  assert (W1 : waits n p s1 = false) by (apply (stays_able n s ev p q s1 e1); auto).
  specialize (IH s1 (ev ++ e1) s' e2 N ltac:(assumption) K1 Hp W1 I E2).
  destruct (waits n q s); cbn [negb b2] in T; lia.
Qed.

Lemma rv_run_app : forall n a b s, rv_run n (a ++ b) s =
  match rv_run n a s with None => None | Some (s1, e1) =>
    match rv_run n b s1 with None => None | Some (s2, e2) => Some (s2, e1 ++ e2) end end.
Proof.
  induction a as [|q t IH]; intros b s; cbn [app rv_run].
  - destruct (rv_run n b s) as [[s2 e2]|]; reflexivity.
  - destruct (rv_step n q s) as [[s1 e1]|]; [|reflexivity]. rewrite IH.
    destruct (rv_run n t s1) as [[s2 e2]|]; [|reflexivity].
    destruct (rv_run n b s2) as [[s3 e3]|]; [|reflexivity]. now rewrite app_assoc.
Qed.

Lemma rounds_advance : forall n blocks s ev s' e, 1 <= n < 65536 -> Forall (everybody n) blocks -> rv_ok n s ev ->
  rv_run n (concat blocks) s = Some (s', e) -> rv_ok n s' (ev ++ e) /\ total n s ev + Z.of_nat (length blocks) <= total n s' (ev ++ e).
Proof.
  induction blocks as [|b t IH]; intros s ev s' e N F K E; cbn [concat] in E.
  - cbn in E. inversion E; subst. rewrite app_nil_r. cbn [length]. split; [exact K|lia].
  - inversion F as [|? ? [V I] F']; subst. rewrite rv_run_app in E.
    destruct (rv_run_ok n b s ev N V K) as (s1 & e1 & E1 & K1). rewrite E1 in E.
    destruct (rv_run n (concat t) s1) as [[s2 e2]|] eqn:E2; [|discriminate]. inversion E; subst.
    destruct (IH s1 (ev ++ e1) s' e2 N F' K1 E2) as [K2 T2]. rewrite app_assoc. split; [exact K2|].
    destruct (can_move n s ev ltac:(lia) K) as (p & Hp & W).
    pose proof (run_advances n p b s ev s1 e1 N V K Hp W (I p Hp) E1). cbn [length]. lia.
Qed.

Lemma leaves_spread : forall n s ev p, rv_ok n s ev -> 0 <= p < n -> leaves 0 ev - 1 <= leaves p ev <= leaves 0 ev.
Proof.
  intros n s ev p K Hp. destruct (Z.eq_dec p 0) as [->|]; [lia|]. rewrite (ro_leaves _ _ _ K p ltac:(lia)).
  unfold b2. destruct (_ && _); lia.
Qed.

Lemma total_bounds : forall n s ev, 1 <= n -> rv_ok n s ev ->
  14 * leaves 0 ev + 7 * (n - 1) * (leaves 0 ev - 1) <= total n s ev /\
  total n s ev <= 14 * leaves 0 ev + 13 + (7 * leaves 0 ev + 13) * (n - 1).
Proof.
  intros n s ev N K. unfold total. pose proof (others_length n N) as L.
  assert (NB : forall c, 0 <= num c <= 13) by (intros []; cbn; lia). pose proof (NB (rv_at s 0)).
  assert (A : (7 * (leaves 0 ev - 1)) * Z.of_nat (length (others n)) <= sum (turns s ev) (others n)).
  { apply sum_ge. intros x Hx. apply in_others in Hx. unfold turns. pose proof (leaves_spread n s ev x K ltac:(lia)). pose proof (NB (rv_at s x)). lia. }
  assert (B : sum (turns s ev) (others n) <= (7 * leaves 0 ev + 13) * Z.of_nat (length (others n))).
  { apply sum_le. intros x Hx. apply in_others in Hx. unfold turns. pose proof (leaves_spread n s ev x K ltac:(lia)). pose proof (NB (rv_at s x)). lia. }
  rewrite L in *. lia.
Qed.
