(** C48: reading a blackboard returns the last message displayed, and after clearing it reports empty until the next
    display.

    The bytes of the last message are indeed what a read begins with, along every history. But the length that is
    reported is that of the blackboard, a read before the first display or after clearing succeeds. *)
From Verif Require Import Model.Base Model.Middleware Spec.MiddlewareSpec Proof.Tac Proof.MiddlewareProof.

Record boards_ok (names : list (list Z)) (h : list (board_op * mw_out)) (s : boards) : Prop := {
  ks_next : bo_next s = created_total h /\ 0 <= created_total h <= DATA_SIZE;
  ks_region : forall i, k_ready (bo s i) = true -> 0 <= k_size (bo s i) /\ 0 <= k_index (bo s i) /\
    k_index (bo s i) + k_size (bo s i) <= created_total h;
  ks_apart : forall i j, k_ready (bo s i) = true -> k_ready (bo s j) = true -> i <> j ->
    k_index (bo s i) + k_size (bo s i) <= k_index (bo s j) \/ k_index (bo s j) + k_size (bo s j) <= k_index (bo s i);
  ks_last : forall i m, last_display i h = Some m -> k_ready (bo s i) = true /\
    Z.of_nat (length m) <= k_size (bo s i) /\ get_bytes (bo_data s) (k_index (bo s i)) (Z.of_nat (length m)) = m
}.

Lemma bytes_of_length : forall msg len, 0 <= len -> Z.of_nat (length (bytes_of msg len)) = len.
Proof. intros. unfold bytes_of. rewrite map_length, seq_length. lia. Qed.

Lemma history_ok : forall names h s, board_history names h s -> boards_ok names h s.
Proof.
  intros names h s H. induction H as [|h s o s' out H K F E].
  - constructor; cbn; intros; try discriminate. unfold DATA_SIZE. lia.
  - destruct K as [[N1 N2] R A L]. destruct o as [name size r|id data len|id null|id]; cbn [board_step fair_use] in *.
    + unfold board_create in E. destruct (find_name names name 0) as [n|]; [|inversion E; subst; constructor; auto].
      destruct (k_ready (bo s n)) eqn:RD; [inversion E; subst; constructor; auto|].
      destruct (r =? ERR_OK); cbn [negb] in E; inversion E; subst; clear E; [|constructor; auto].
      unfold DATA_SIZE in *. constructor; cbn [bo bo_data bo_next created_total last_display].
      * rewrite N1. unfold u32, DATA_SIZE. rewrite Z.mod_small by lia. lia.
      * intros i Hi. revert Hi. unfold upd. destruct (Z.eqb_spec i n) as [En|Ni]; cbn [k_size k_index k_ready]; intros Hi; [lia|].
        specialize (R i Hi). lia.
      * intros i j Hi Hj D. revert Hi Hj. unfold upd. destruct (Z.eqb_spec i n) as [Ei|Ni], (Z.eqb_spec j n) as [Ej|Nj]; cbn [k_size k_index k_ready]; intros Hi Hj; try congruence.
        -- right. specialize (R j Hj). lia.
        -- left. specialize (R i Hi). lia.
        -- auto.
      * intros i m Hm. destruct (L i m Hm) as (L1 & L2 & L3). unfold upd. destruct (Z.eqb_spec i n) as [En|]; [rewrite En in L1; congruence|auto].
    + unfold board_display in E.
      assert (SAME : forall c, c <> ERR_OK -> boards_ok names ((KDisplay id data len, Returns c) :: h) s).
      { intros c Hc. constructor; cbn [created_total]; auto. intros i m Hm. cbn [last_display] in Hm.
        destruct data; [|auto]. destruct (Z.eqb_spec c ERR_OK); [congruence|]. rewrite andb_false_r in Hm. auto. }
      destruct (Z.of_nat (length names) <? id); [inversion E; subst; apply SAME; discriminate|].
      destruct data as [msg|]; [|inversion E; subst; apply SAME; discriminate].
      destruct (id =? Z.of_nat (length names)); [inversion E; subst; constructor; auto|].
      destruct (Z.ltb_spec (k_size (bo s id)) len); [inversion E; subst; apply SAME; discriminate|].
      destruct (k_ready (bo s id)) eqn:RD; cbn [negb] in E; [|inversion E; subst; apply SAME; discriminate].
      inversion E; subst; clear E SAME. constructor; cbn [bo bo_data bo_next created_total last_display]; auto.
      intros i m Hm. rewrite Z.eqb_refl, andb_true_r in Hm. destruct (Z.eqb_spec id i) as [->|Ni].
      * inversion Hm; subst. rewrite bytes_of_length by lia. split; [exact RD|]. split; [lia|]. apply get_put. lia.
      * destruct (L i m Hm) as (L1 & L2 & L3). split; [exact L1|]. split; [exact L2|]. rewrite <- L3 at 2.
        apply get_bytes_ext. intros k Hk. apply put_other. destruct (A i id L1 RD ltac:(congruence)); lia.
    + unfold board_read in E.
      assert (SAME : forall o, boards_ok names ((KRead id null, o) :: h) s) by (intros; constructor; cbn [created_total last_display]; auto).
      destruct (Z.of_nat (length names) <? id); [inversion E; subst; apply SAME|].
      destruct null; [inversion E; subst; apply SAME|].
      destruct (id =? Z.of_nat (length names)); [inversion E; subst; apply SAME|].
      destruct (k_ready (bo s id)); inversion E; subst; apply SAME.
    + unfold board_clear in E.
      assert (SAME : forall o, boards_ok names ((KClear id, o) :: h) s) by (intros; constructor; cbn [created_total last_display]; auto).
      destruct (Z.of_nat (length names) <? id); [inversion E; subst; apply SAME|].
      destruct (id =? Z.of_nat (length names)); [inversion E; subst; apply SAME|].
      inversion E; subst; clear E.
      assert (X : forall i, k_ready (upd (bo s) id (mkBoard (k_size (bo s id)) true (k_index (bo s id)) (k_ready (bo s id))) i) = k_ready (bo s i) /\
                            k_size (upd (bo s) id (mkBoard (k_size (bo s id)) true (k_index (bo s id)) (k_ready (bo s id))) i) = k_size (bo s i) /\
                            k_index (upd (bo s) id (mkBoard (k_size (bo s id)) true (k_index (bo s id)) (k_ready (bo s id))) i) = k_index (bo s i)).
      { intros i. unfold upd. destruct (Z.eqb_spec i id) as [->|]; auto. }
      constructor; cbn [bo bo_data bo_next created_total last_display]; auto.
      * intros i. destruct (X i) as (-> & -> & ->). auto.
      * intros i j. destruct (X i) as (-> & -> & ->), (X j) as (-> & -> & ->). auto.
      * intros i m. destruct (X i) as (-> & -> & ->). auto.
Qed.

(** What a read delivers begins with the last message displayed. *)
Theorem C48_read_partial : forall names h s id msg len m, board_history names h s ->
  last_display id h = Some m ->
  snd (board_step names (KRead id false) s) = Delivers msg len ->
  firstn (length m) msg = m /\ Z.of_nat (length m) <= len /\ Z.of_nat (length msg) = len.
Proof.
  intros names h s id msg len m H M E. pose proof (history_ok names h s H) as [N R A L].
  destruct (L id m M) as (L1 & L2 & L3). cbn [board_step] in E. unfold board_read in E.
  destruct (_ <? id); [discriminate|]. destruct (_ =? _); [discriminate|]. rewrite L1 in E. cbn [negb snd] in E.
  inversion E; subst; clear E. destruct (R id L1) as (R1 & _). split; [|split; [exact L2|unfold get_bytes; rewrite map_length, seq_length; lia]].
  rewrite <- L3 at 2. unfold get_bytes. rewrite firstn_map. f_equal.
  replace (Z.to_nat (k_size (bo s id))) with (length m + (Z.to_nat (k_size (bo s id)) - length m))%nat by lia.
  rewrite seq_app, firstn_app, seq_length, Nat.sub_diag, firstn_O, app_nil_r, Nat2Z.id.
  rewrite <- (seq_length (length m) 0) at 1. apply firstn_all.
Qed.
Print Assumptions C48_read_partial.

(** A read of a blackboard that exists succeeds. *)
Theorem C48_displayed_partial : forall names h s id m, board_history names h s -> last_display id h = Some m ->
  0 <= id < Z.of_nat (length names) -> exists msg len, snd (board_step names (KRead id false) s) = Delivers msg len.
Proof.
  intros names h s id m H M I. destruct (ks_last _ _ _ (history_ok names h s H) id m M) as (L1 & _).
  cbn [board_step]. unfold board_read. destruct (Z.ltb_spec (Z.of_nat (length names)) id); [lia|].
  destruct (Z.eqb_spec id (Z.of_nat (length names))); [lia|]. rewrite L1. cbn. eauto.
Qed.
Print Assumptions C48_displayed_partial.

Lemma demo_history : board_history [[97]] [(KDisplay 0 (Some (fun k => 7 + k)) 3, Returns 0); (KCreate [97] 4 0, Created 0)]
  (fst (board_run [[97]] [KCreate [97] 4 0; KDisplay 0 (Some (fun k => 7 + k)) 3] boards_start)).
Proof.
  eapply bh_step; [eapply bh_step; [apply bh_start| |reflexivity]| |reflexivity]; cbn; unfold DATA_SIZE; lia.
Qed.
Example C48_example : last_display 0 [(KDisplay 0 (Some (fun k => 7 + k)) 3, Returns 0); (KCreate [97] 4 0, Created 0)] = Some [7; 8; 9] /\
  snd (board_step [[97]] (KRead 0 false) (fst (board_run [[97]] [KCreate [97] 4 0; KDisplay 0 (Some (fun k => 7 + k)) 3] boards_start))) =
    Delivers [7; 8; 9; 0] 4.
Proof. split; vm_compute; reflexivity. Qed.

(** The message with its length. *)
Theorem C48_length_refuted : ~ forall names h s id msg len m, board_history names h s ->
  last_display id h = Some m -> snd (board_step names (KRead id false) s) = Delivers msg len -> msg = m /\ len = Z.of_nat (length m).
Proof.
  intros H. specialize (H _ _ _ 0 [7; 8; 9; 0] 4 [7; 8; 9] demo_history eq_refl ltac:(vm_compute; reflexivity)). destruct H as [H _]. discriminate H.
Qed.
Print Assumptions C48_length_refuted.

(** Empty before the first display and after clearing. *)
Definition cleared (id : Z) (h : list (board_op * mw_out)) : Prop :=
  exists pre post, h = pre ++ (KClear id, Returns ERR_OK) :: post /\ last_display id pre = None.
Theorem C48_clear_refuted : ~ forall names h s id msg len, board_history names h s ->
  cleared id h \/ last_display id h = None -> snd (board_step names (KRead id false) s) <> Delivers msg len.
Proof.
  intros H.
  refine (H [[97]] _ _ 0 [7; 8; 9; 0] 4 (bh_step _ _ _ (KClear 0) _ _ demo_history _ eq_refl) _ _).
  - cbn. lia.
  - left. exists []. eexists. split; reflexivity.
  - vm_compute. reflexivity.
Qed.
Print Assumptions C48_clear_refuted.

Theorem C48_fresh_refuted : ~ forall names h s id msg len, board_history names h s ->
  last_display id h = None -> snd (board_step names (KRead id false) s) <> Delivers msg len.
Proof.
  intros H.
  refine (H [[97]] _ _ 0 [0; 0; 0; 0] 4 (bh_step [[97]] _ _ (KCreate [97] 4 0) _ _ (bh_start _) _ eq_refl) eq_refl _).
  - cbn. unfold DATA_SIZE. lia.
  - vm_compute. reflexivity.
Qed.
Print Assumptions C48_fresh_refuted.
