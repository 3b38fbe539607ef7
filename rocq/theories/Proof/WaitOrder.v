(** Order of a wait queue according to its discipline, against the arrival list. *)
From Verif Require Import Model.Base Model.State Model.LockFifo Model.LockObj Model.LockSys
  Spec.LockSpec Proof.Tac Proof.LockFifoProof.

Definition keys (q : wqueue) : list Z := map fst q.

Fixpoint pinsert (e : Z * Z) (l : wqueue) : wqueue :=
  match l with
  | [] => [e]
  | x :: l' => if snd e <=? snd x then x :: pinsert e l' else e :: x :: l'
  end.

Definition psort (q : wqueue) : wqueue := fold_left (fun acc e => pinsert e acc) q [].

Definition order (pol : Z) (q : wqueue) : wqueue := if pol =? QD_PRIORITY then psort q else q.
Definition pick (pol : Z) (q : wqueue) : option Z :=
  if pol =? QD_PRIORITY then most_urgent q else first_come q.

Lemma psort_snoc : forall q e, psort (q ++ [e]) = pinsert e (psort q).
Proof. intros q e. unfold psort. now rewrite fold_left_app. Qed.

Lemma waits_in : forall t q, waits t q = true <-> In t (keys q).
Proof.
  intros t q. unfold waits, keys. rewrite existsb_exists. rewrite in_map_iff. split.
  - intros (x & Hin & Heq). apply Z.eqb_eq in Heq. eauto.
  - intros (x & Heq & Hin). exists x. split; [exact Hin|]. now apply Z.eqb_eq.
Qed.

Lemma waits_notin : forall t q, waits t q = false <-> ~ In t (keys q).
Proof.
  intros t q. rewrite <- waits_in. destruct (waits t q); split; congruence.
Qed.

Lemma pinsert_in : forall e l x, In x (pinsert e l) <-> x = e \/ In x l.
Proof.
  intros e l x. induction l as [|y l IH]; cbn [pinsert].
  - cbn [In]. intuition.
  - destruct (snd e <=? snd y); cbn [In]; rewrite ?IH; intuition.
Qed.

Lemma psort_in : forall q x, In x (psort q) <-> In x q.
Proof.
  intros q. induction q as [|e q IH] using rev_ind; intros x.
  - reflexivity.
  - rewrite psort_snoc, pinsert_in, in_app_iff, IH. cbn [In]. intuition.
Qed.

Lemma pinsert_length : forall e l, length (pinsert e l) = S (length l).
Proof.
  intros e l. induction l as [|x l IH]; cbn [pinsert length]; [reflexivity|].
  destruct (snd e <=? snd x); cbn [length]; lia.
Qed.

Lemma psort_length : forall q, length (psort q) = length q.
Proof.
  intros q. induction q as [|e q IH] using rev_ind; [reflexivity|].
  rewrite psort_snoc, pinsert_length, app_length, IH. cbn [length]. lia.
Qed.

Lemma leaves_in : forall t q x, In x (leaves t q) -> In x q.
Proof.
  intros t q x. induction q as [|(y & p) q IH]; cbn [leaves]; [auto|].
  destruct (y =? t); cbn [In]; intuition.
Qed.

Lemma leaves_notin : forall t q, ~ In t (keys q) -> leaves t q = q.
Proof.
  intros t q. induction q as [|(y & p) q IH]; intros H; cbn [leaves]; [reflexivity|].
  cbn [keys map fst In] in H.
  destruct (Z.eqb_spec y t) as [->|Hne]; [exfalso; apply H; now left|].
  f_equal. apply IH. intros Hin. apply H. now right.
Qed.

Lemma keys_leaves : forall t q, keys (leaves t q) = leave t (keys q).
Proof.
  intros t q. induction q as [|(y & p) q IH]; cbn [leaves keys map fst leave]; [reflexivity|].
  destruct (y =? t); [reflexivity|]. cbn [map fst]. f_equal. exact IH.
Qed.

Lemma leave_in : forall t l x, In x (leave t l) -> In x l.
Proof.
  intros t l x. induction l as [|y l IH]; cbn [leave]; [auto|].
  destruct (y =? t); cbn [In]; intuition.
Qed.

Lemma leave_nodup : forall t l, NoDup l -> NoDup (leave t l) /\ ~ In t (leave t l).
Proof.
  intros t l H. induction H as [|y l Hn Hnd IH]; cbn [leave].
  - split; [constructor|auto].
  - destruct (Z.eqb_spec y t) as [->|Hne]; [auto|].
    destruct IH as (IH1 & IH2). split.
    + constructor; [|exact IH1]. intros H. apply Hn. eapply leave_in; eauto.
    + intros [H|H]; [auto|contradiction].
Qed.

Lemma leaves_keep : forall t q x, In x q -> fst x <> t -> In x (leaves t q).
Proof.
  intros t q x. induction q as [|(y & p) q IH]; intros Hin Hne; [contradiction|].
  cbn [leaves]. destruct (Z.eqb_spec y t) as [->|Hyt].
  - destruct Hin as [<-|Hin]; [cbn [fst] in Hne; contradiction|exact Hin].
  - destruct Hin as [<-|Hin]; [now left|]. right. now apply IH.
Qed.

Lemma leave_keep : forall t l x, In x l -> x <> t -> In x (leave t l).
Proof.
  intros t l x. induction l as [|y l IH]; intros Hin Hne; [contradiction|].
  cbn [leave]. destruct (Z.eqb_spec y t) as [->|Hyt].
  - destruct Hin as [<-|Hin]; [contradiction|exact Hin].
  - destruct Hin as [<-|Hin]; [now left|]. right. now apply IH.
Qed.

(** Sortedness: priorities never increase along the queue. *)
Fixpoint desc (l : wqueue) : Prop :=
  match l with
  | [] => True
  | x :: l' => (forall y, In y l' -> snd y <= snd x) /\ desc l'
  end.

Lemma pinsert_desc : forall e l, desc l -> desc (pinsert e l).
Proof.
  intros e l. induction l as [|x l IH]; intros Hd; cbn [pinsert].
  - cbn [desc]. split; [intros y []|exact I].
  - destruct Hd as (Hx & Hd). destruct (Z.leb_spec (snd e) (snd x)) as [Hle|Hgt].
    + cbn [desc]. split; [|auto]. intros y Hy. apply pinsert_in in Hy as [->|Hy]; auto.
    + cbn [desc]. split; [|auto]. intros y [<-|Hy]; [lia|]. specialize (Hx y Hy). lia.
Qed.

Lemma psort_desc : forall q, desc (psort q).
Proof.
  intros q. induction q as [|e q IH] using rev_ind; [exact I|].
  rewrite psort_snoc. now apply pinsert_desc.
Qed.

Lemma pinsert_all_le : forall e l, (forall y, In y l -> snd y < snd e) -> pinsert e l = e :: l.
Proof.
  intros e l H. destruct l as [|x l]; [reflexivity|]. cbn [pinsert].
  destruct (Z.leb_spec (snd e) (snd x)) as [Hle|Hgt]; [|reflexivity].
  specialize (H x (or_introl eq_refl)). lia.
Qed.

Lemma leaves_pinsert_other : forall t e l,
  desc l -> fst e <> t -> leaves t (pinsert e l) = pinsert e (leaves t l).
Proof.
  intros t (a & p) l. induction l as [|(y & r) l IH]; intros Hd Hne; cbn [fst] in Hne.
  - cbn [pinsert leaves]. destruct (Z.eqb_spec a t); [contradiction|reflexivity].
  - destruct Hd as (Hx & Hd). cbn [pinsert snd leaves].
    destruct (Z.leb_spec p r) as [Hle|Hgt].
    + cbn [leaves]. destruct (Z.eqb_spec y t) as [->|Hyt]; [reflexivity|].
      cbn [pinsert snd]. destruct (Z.leb_spec p r); [|lia].
      f_equal. apply IH; auto.
    + cbn [leaves]. destruct (Z.eqb_spec a t); [contradiction|].
      destruct (Z.eqb_spec y t) as [->|Hyt].
      * rewrite pinsert_all_le; [reflexivity|]. cbn [snd].
        intros z Hz. specialize (Hx z Hz). cbn [snd] in Hx. lia.
      * cbn [pinsert snd]. destruct (Z.leb_spec p r); [lia|reflexivity].
Qed.

Lemma leaves_pinsert_self : forall e l,
  ~ In (fst e) (keys l) -> leaves (fst e) (pinsert e l) = l.
Proof.
  intros (a & p) l. induction l as [|(y & r) l IH]; intros Hn; cbn [fst] in *.
  - cbn [pinsert leaves]. now rewrite Z.eqb_refl.
  - cbn [keys map fst In] in Hn. cbn [pinsert snd].
    destruct (p <=? r); cbn [leaves].
    + destruct (Z.eqb_spec y a) as [->|Hne]; [exfalso; apply Hn; now left|].
      f_equal. apply IH. intros H. apply Hn. now right.
    + now rewrite Z.eqb_refl.
Qed.

Lemma keys_psort_in : forall q t, In t (keys (psort q)) <-> In t (keys q).
Proof.
  intros q t. unfold keys. rewrite !in_map_iff. split; intros (x & He & Hin); exists x;
    (split; [exact He|]); now apply psort_in.
Qed.

Lemma leaves_snoc_in : forall t q e, In t (keys q) -> leaves t (q ++ [e]) = leaves t q ++ [e].
Proof.
  intros t q e. induction q as [|(y & p) q IH]; intros Hin; [contradiction|].
  cbn [app leaves]. destruct (Z.eqb_spec y t) as [->|Hne]; [reflexivity|].
  cbn [keys map fst] in Hin. destruct Hin as [Hin|Hin]; [contradiction|].
  cbn [app]. f_equal. now apply IH.
Qed.

Lemma leaves_snoc_notin : forall t q e, ~ In t (keys q) ->
  leaves t (q ++ [e]) = if fst e =? t then q else q ++ [e].
Proof.
  intros t q (a & p). induction q as [|(y & r) q IH]; intros Hin.
  - cbn [app leaves fst]. destruct (a =? t); reflexivity.
  - cbn [keys map fst In] in Hin. cbn [app leaves].
    destruct (Z.eqb_spec y t) as [->|Hne]; [exfalso; apply Hin; now left|].
    rewrite IH by (intros H; apply Hin; now right).
    cbn [fst]. destruct (a =? t); reflexivity.
Qed.

Lemma NoDup_snoc : forall (l : list Z) x, NoDup (l ++ [x]) <-> NoDup l /\ ~ In x l.
Proof.
  intros l x. induction l as [|y l IH]; cbn [app].
  - split; [split; [constructor|auto]|]. intros _. constructor; [auto|constructor].
  - split.
    + intros H. inversion H as [|? ? Hn Hnd]; subst.
      apply IH in Hnd as (H1 & H2). rewrite in_app_iff in Hn. split.
      * constructor; [|exact H1]. intros Hin. apply Hn. now left.
      * intros [->|Hin]; [|contradiction]. apply Hn. right. now left.
    + intros (H1 & H2). inversion H1 as [|? ? Hn Hnd]; subst. constructor.
      * rewrite in_app_iff. intros [Hin|[->|[]]]; [contradiction|]. apply H2. now left.
      * apply IH. split; [exact Hnd|]. intros Hin. apply H2. now right.
Qed.

Lemma keys_snoc : forall q e, keys (q ++ [e]) = keys q ++ [fst e].
Proof. intros q e. unfold keys. now rewrite map_app. Qed.

Lemma leaves_psort : forall q t, NoDup (keys q) -> leaves t (psort q) = psort (leaves t q).
Proof.
  intros q t. induction q as [|e q IH] using rev_ind; intros Hnd; [reflexivity|].
  rewrite keys_snoc in Hnd. apply NoDup_snoc in Hnd as (Hnd & Hni).
  rewrite psort_snoc.
  destruct (Z.eq_dec (fst e) t) as [<-|Hne].
  - rewrite leaves_pinsert_self by (now rewrite keys_psort_in).
    rewrite leaves_snoc_notin by exact Hni. now rewrite Z.eqb_refl.
  - rewrite leaves_pinsert_other by (auto using psort_desc).
    rewrite IH by exact Hnd.
    destruct (in_dec Z.eq_dec t (keys q)) as [Hin|Hin].
    + rewrite leaves_snoc_in by exact Hin. now rewrite psort_snoc.
    + rewrite leaves_snoc_notin by exact Hin.
      destruct (Z.eqb_spec (fst e) t); [contradiction|].
      rewrite psort_snoc. now rewrite leaves_notin.
Qed.

(** Head of the sorted list. *)
Lemma best_snoc : forall q e,
  best (q ++ [e]) = match best q with
                    | Some (y, r) => if r <? snd e then Some e else Some (y, r)
                    | None => Some e
                    end.
Proof.
  intros q (a & p). induction q as [|(x & r) q IH]; [reflexivity|].
  cbn [app best]. rewrite IH. cbn [snd].
  destruct (best q) as [(y & s)|].
  - destruct (Z.ltb_spec s p); destruct (Z.ltb_spec r s); destruct (Z.ltb_spec r p);
      try reflexivity; try lia;
      cbn; destruct (Z.ltb_spec r p); try lia; try reflexivity;
      destruct (Z.ltb_spec s p); try lia; reflexivity.
  - reflexivity.
Qed.

Lemma best_hd : forall q, best q = hd_error (psort q).
Proof.
  intros q. induction q as [|e q IH] using rev_ind; [reflexivity|].
  rewrite best_snoc, psort_snoc, IH.
  destruct (psort q) as [|(y & r) l]; [reflexivity|].
  cbn [hd_error pinsert snd].
  destruct (Z.ltb_spec r (snd e)); destruct (Z.leb_spec (snd e) r); try lia; reflexivity.
Qed.

Lemma pick_hd : forall pol q, pick pol q = hd_error (keys (order pol q)).
Proof.
  intros pol q. unfold pick, order. destruct (pol =? QD_PRIORITY).
  - unfold most_urgent. rewrite best_hd. destruct (psort q) as [|(y & r) l]; reflexivity.
  - destruct q as [|(y & r) l]; reflexivity.
Qed.

Lemma order_leaves : forall pol q t, NoDup (keys q) ->
  keys (order pol (leaves t q)) = leave t (keys (order pol q)).
Proof.
  intros pol q t Hnd. unfold order. destruct (pol =? QD_PRIORITY).
  - rewrite <- leaves_psort by exact Hnd. apply keys_leaves.
  - apply keys_leaves.
Qed.

Lemma order_in : forall pol q x, In x (order pol q) <-> In x q.
Proof.
  intros pol q x. unfold order. destruct (pol =? QD_PRIORITY); [apply psort_in|reflexivity].
Qed.

Lemma order_length : forall pol q, length (order pol q) = length q.
Proof.
  intros pol q. unfold order. destruct (pol =? QD_PRIORITY); [apply psort_length|reflexivity].
Qed.

Lemma order_nil : forall pol q, order pol q = [] <-> q = [].
Proof.
  intros pol q. split; intros H.
  - apply length_zero_iff_nil. rewrite <- (order_length pol q), H. reflexivity.
  - subst. unfold order. destruct (pol =? QD_PRIORITY); reflexivity.
Qed.

Lemma keys_pinsert : forall prio t l,
  (forall y p, In (y, p) l -> prio y = p) ->
  keys (pinsert (t, prio t) l) = insert_prio prio t (keys l).
Proof.
  intros prio t l. induction l as [|(y & r) l IH]; intros Hp; [reflexivity|].
  cbn [pinsert snd keys map fst insert_prio].
  rewrite (Hp y r (or_introl eq_refl)).
  destruct (prio t <=? r); [|reflexivity].
  cbn [map fst]. f_equal. apply IH. intros z p Hz. apply Hp. now right.
Qed.

Lemma order_enqueue : forall n prio f pol q t,
  repr n f (keys (order pol q)) -> (length q < Z.to_nat n)%nat ->
  (forall y p, In (y, p) q -> prio y = p) ->
  pol = QD_FIFO \/ pol = QD_PRIORITY ->
  exists f', fifo_enqueue n prio f t pol = Some (f', ERR_OK) /\
             repr n f' (keys (order pol (q ++ [(t, prio t)]))).
Proof.
  intros n prio f pol q t Hr Hl Hp [->| ->]; unfold order in *.
  - change (QD_FIFO =? QD_PRIORITY) with false in *. cbv iota in *.
    rewrite keys_snoc. cbn [fst]. apply repr_enqueue_fifo; [exact Hr|].
    unfold keys. now rewrite map_length.
  - rewrite Z.eqb_refl in *. rewrite psort_snoc, keys_pinsert.
    + apply repr_enqueue_prio; [exact Hr|].
      unfold keys. now rewrite map_length, psort_length.
    + intros y p Hin. apply Hp. now apply psort_in.
Qed.

Lemma order_remove : forall n f pol q t,
  repr n f (keys (order pol q)) -> NoDup (keys q) ->
  exists f' e, fifo_remove n f t = Some (f', e) /\ repr n f' (keys (order pol (leaves t q))).
Proof.
  intros n f pol q t Hr Hnd.
  destruct (repr_remove n f _ t Hr) as (f' & e & H1 & H2 & _).
  exists f', e. split; [exact H1|]. now rewrite order_leaves.
Qed.

Lemma order_dequeue : forall n f pol q,
  repr n f (keys (order pol q)) -> NoDup (keys q) -> f_empty f = false ->
  exists w f', pick pol q = Some w /\ fifo_get_head f = w /\ In w (keys q) /\
    fifo_dequeue n f = (f', ERR_OK) /\ repr n f' (keys (order pol (leaves w q))).
Proof.
  intros n f pol q Hr Hnd He.
  rewrite pick_hd. destruct (keys (order pol q)) as [|w l] eqn:Hk.
  - destruct Hr as (_ & _ & _ & _ & He' & _). congruence.
  - destruct (repr_dequeue n f w l Hr) as (f' & Hd & Hr' & _).
    exists w, f'. split; [reflexivity|]. split; [eapply repr_head; eauto|].
    split.
    { assert (Hin : In w (keys (order pol q))) by (rewrite Hk; now left).
      unfold keys in *. apply in_map_iff in Hin as (x & Hx & Hin). apply order_in in Hin.
      apply in_map_iff. eauto. }
    split; [exact Hd|]. rewrite order_leaves by exact Hnd. rewrite Hk.
    cbn [leave]. now rewrite Z.eqb_refl.
Qed.
