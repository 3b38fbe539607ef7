(** Spin locks exclude each other, and their assertions hold. *)
From Verif Require Import Model.Base Model.Smp Spec.SmpSpec Proof.Tac.

Definition owner_pc (pc : spin_pc) : option Z :=
  match pc with
  | SpTest l al => if al =? 0 then Some l else None
  | SpInc l | SpIncW l _ | SpAssert l | SpAssertCnt l | SpDec l | SpDecW l _ | SpStore l => Some l
  | _ => None
  end.
(** Locks held and not counted. *)
Definition uncounted (pc : spin_pc) : Z :=
  match pc with
  | SpTest l al => if al =? 0 then 1 else 0
  | SpInc _ | SpIncW _ _ | SpStore _ => 1
  | _ => 0
  end.
Definition lock_of (pc : spin_pc) : option Z :=
  match pc with
  | SpOut => None
  | SpXchg l | SpTest l _ | SpInc l | SpIncW l _ | SpAssert l | SpAssertCnt l | SpDec l | SpDecW l _ | SpStore l => Some l
  end.

Record spin_ok (nl : Z) (hl : Z -> list Z) (tr : list spin_event) (s : spin_state) : Prop := {
  so_nodup : forall p, NoDup (hl p);
  so_in : forall p l, In l (hl p) <-> inside p l tr = true;
  so_range : forall p l, In l (hl p) -> 0 <= l < nl;
  so_bit : forall l, sp_lock s l = 0 \/ sp_lock s l = 1;
  so_free : forall l, sp_lock s l = 0 <-> forall p, inside p l tr = false;
  so_one : forall l p q, inside p l tr = true -> inside q l tr = true -> p = q;
  so_cnt : forall p, sp_cnt s p + uncounted (sp_pc s p) = Z.of_nat (length (hl p));
  so_reg : forall p, match sp_pc s p with SpIncW _ v | SpDecW _ v => v = sp_cnt s p | _ => True end;
  so_own : forall p l, owner_pc (sp_pc s p) = Some l -> inside p l tr = true;
  so_pc : forall p l, lock_of (sp_pc s p) = Some l -> 0 <= l < nl
}.

Lemma held_bound : forall nl hl tr s p, spin_ok nl hl tr s -> 0 <= nl -> Z.of_nat (length (hl p)) <= nl.
Proof.
  intros nl hl tr s p K N.
  assert (I : incl (hl p) (map Z.of_nat (seq 0 (Z.to_nat nl)))).
  { intros l Hl. apply (so_range _ _ _ _ K) in Hl. apply in_map_iff. exists (Z.to_nat l). split; [lia|apply in_seq; lia]. }
  apply NoDup_incl_length in I; [|apply (so_nodup _ _ _ _ K)]. rewrite map_length, seq_length in I. lia.
Qed.

Lemma held_pos : forall nl hl tr s p l, spin_ok nl hl tr s -> inside p l tr = true -> 1 <= Z.of_nat (length (hl p)).
Proof. intros nl hl tr s p l K H. apply (so_in _ _ _ _ K) in H. destruct (hl p); [destruct H|cbn; lia]. Qed.

Lemma s32_small : forall x, - 2 ^ 31 <= x < 2 ^ 31 -> s32 x = x.
Proof.
  intros x H. unfold s32, sgn. change (2 ^ (32 - 1)) with 2147483648. change (2 ^ 32) with 4294967296.
  change (2 ^ 31) with 2147483648 in H. destruct (Z.ltb_spec (x mod 4294967296) 2147483648); lia.
Qed.

Lemma spin_start_ok : forall nl, spin_ok nl (fun _ => []) [] spin_start.
Proof.
  intros nl. constructor; cbn; intros; try tauto; try discriminate; try lia.
  constructor.
Qed.

(** A step that changes only the position of [p], keeping the number of uncounted locks. *)
Lemma goto_ok : forall nl hl tr s p pc, spin_ok nl hl tr s ->
  uncounted pc = uncounted (sp_pc s p) ->
  (forall l, owner_pc pc = Some l -> inside p l tr = true) ->
  (forall l, lock_of pc = Some l -> 0 <= l < nl) ->
  match pc with SpIncW _ v | SpDecW _ v => v = sp_cnt s p | _ => True end ->
  spin_ok nl hl tr (mkSpin (sp_lock s) (sp_cnt s) (upd (sp_pc s) p pc)).
Proof.
  intros nl hl tr s p pc K U O L R. destruct K. constructor; cbn; try assumption; intros q; unfold upd; destruct (Z.eqb_spec q p) as [->|N]; auto.
  - rewrite U. apply so_cnt0.
  - apply so_reg0.
  - apply so_pc0.
Qed.

Definition allowed (nl : Z) (a : spin_label) (tr : list spin_event) : Prop :=
  match a with SpLock p l => 0 <= l < nl | SpUnlock p l => 0 <= l < nl /\ inside p l tr = true | SpNext p => True end.

Lemma spin_step_ok : forall nl hl tr s a s' ev, 0 <= nl < 2 ^ 31 -> spin_ok nl hl tr s -> allowed nl a tr ->
  spin_step a s = SpGo s' ev -> exists hl', spin_ok nl hl' (ev ++ tr) s'.
Proof.
  intros nl hl tr s a s' ev N K A E. unfold spin_step in E. destruct a as [p l|p l|p]; cbn [allowed] in A.
  - destruct (sp_pc s p) eqn:P; try discriminate. inversion E; subst. exists hl. apply goto_ok; auto.
    + now rewrite P. + cbn; discriminate. + cbn. intros ? [= <-]. exact A.
  - destruct (sp_pc s p) eqn:P; try discriminate. inversion E; subst. exists hl. apply goto_ok; auto.
    + now rewrite P. + cbn. intros ? [= <-]. tauto. + cbn. intros ? [= <-]. tauto.
  - pose proof (so_own _ _ _ _ K p) as O. pose proof (so_pc _ _ _ _ K p) as L. pose proof (so_reg _ _ _ _ K p) as R.
    pose proof (held_bound nl hl tr s p K ltac:(lia)) as HB. pose proof (so_cnt _ _ _ _ K p) as HC.
    destruct (sp_pc s p) eqn:P; try discriminate; cbn [owner_pc lock_of uncounted] in *.
    + (* xchg *)
      inversion E; subst; clear E. specialize (L l eq_refl).
      destruct (Z.eqb_spec (sp_lock s l) 0) as [F|F].
      * exists (upd hl p (l :: hl p)). pose proof (proj1 (so_free _ _ _ _ K l) F) as NF. destruct K.
        assert (NI : ~ In l (hl p)) by (rewrite so_in0, NF; discriminate).
        constructor; cbn [app sp_lock sp_cnt sp_pc].
        -- intros q. unfold upd. destruct (Z.eqb_spec q p) as [->|]; [constructor; auto|auto].
        -- intros q m. cbn [inside]. unfold upd. rewrite (Z.eqb_sym p q). destruct (Z.eqb_spec q p) as [->|]; cbn [andb]; [|apply so_in0].
           cbn [In]. destruct (Z.eqb_spec l m) as [->|Nm]; [tauto|]. rewrite so_in0. intuition congruence.
        -- intros q m. unfold upd. destruct (Z.eqb_spec q p) as [->|]; [|apply so_range0]. intros [<-|H]; [exact L|eauto].
        -- intros m. unfold upd. destruct (m =? l); auto.
        -- intros m. cbn [inside]. unfold upd. destruct (Z.eqb_spec m l) as [->|Nm].
           ++ split; [discriminate|]. intros H. specialize (H p). rewrite !Z.eqb_refl in H. discriminate H.
           ++ rewrite so_free0. destruct (Z.eqb_spec l m); [congruence|]. now setoid_rewrite andb_false_r.
        -- intros m q r. cbn [inside]. destruct (Z.eqb_spec l m) as [->|]; [|rewrite !andb_false_r; apply so_one0].
           rewrite !andb_true_r. destruct (Z.eqb_spec p q), (Z.eqb_spec p r); try congruence; rewrite NF; discriminate.
        -- intros q. unfold upd. destruct (Z.eqb_spec q p) as [->|]; [|apply so_cnt0].
           cbn [uncounted length]. rewrite F. cbn [Z.eqb]. lia.
        -- intros q. unfold upd. destruct (Z.eqb_spec q p) as [->|]; [exact I|apply so_reg0].
        -- intros q m. unfold upd. cbn [inside]. destruct (Z.eqb_spec q p) as [->|N2].
           ++ cbn [owner_pc]. rewrite F. cbn [Z.eqb]. intros [= <-]. now rewrite !Z.eqb_refl.
           ++ intros H. apply so_own0 in H. now destruct ((p =? q) && (l =? m)).
        -- intros q m. unfold upd. destruct (Z.eqb_spec q p) as [->|]; [|apply so_pc0]. cbn. intros [= <-]. exact L.
      * exists hl. destruct K. assert (F1 : sp_lock s l = 1) by (destruct (so_bit0 l); tauto).
        constructor; cbn [app sp_lock sp_cnt sp_pc]; try assumption.
        -- intros m. unfold upd. destruct (m =? l); auto.
        -- intros m. unfold upd. destruct (Z.eqb_spec m l) as [->|]; [|apply so_free0]. rewrite <- so_free0, F1. tauto.
        -- intros q. unfold upd. destruct (Z.eqb_spec q p) as [->|]; [|apply so_cnt0].
           cbn [uncounted]. rewrite F1. cbn [Z.eqb]. lia.
        -- intros q. unfold upd. destruct (Z.eqb_spec q p) as [->|]; [exact I|apply so_reg0].
        -- intros q m. unfold upd. destruct (Z.eqb_spec q p) as [->|]; [|apply so_own0].
           cbn [owner_pc]. rewrite F1. discriminate.
        -- intros q m. unfold upd. destruct (Z.eqb_spec q p) as [->|]; [|apply so_pc0]. cbn. intros [= <-]. exact L.
    + inversion E; subst; clear E. exists hl. apply goto_ok; auto.
      * rewrite P. cbn [uncounted]. now destruct (al =? 0).
      * intros m. destruct (al =? 0) eqn:Al; cbn [owner_pc]; [intros [= <-]; now apply O|discriminate].
      * intros m. destruct (al =? 0); cbn [lock_of]; auto.
      * now destruct (al =? 0).
    + inversion E; subst; clear E. exists hl. apply goto_ok; auto. now rewrite P.
    + inversion E; subst; clear E. exists hl. rewrite s32_small by lia. destruct K.
      constructor; cbn [app sp_lock sp_cnt sp_pc]; try assumption; intros q; unfold upd; destruct (Z.eqb_spec q p) as [->|]; cbn; auto; try discriminate; try lia; try apply so_reg0; try apply so_pc0.
    + destruct (sp_lock s l =? 0); [discriminate|]. inversion E; subst; clear E. exists hl. apply goto_ok; auto. now rewrite P.
    + destruct (sp_cnt s p =? 0); [discriminate|]. inversion E; subst; clear E. exists hl. apply goto_ok; auto. now rewrite P.
    + inversion E; subst; clear E. exists hl. apply goto_ok; auto. now rewrite P.
    + inversion E; subst; clear E. exists hl. pose proof (held_pos _ _ _ _ p l K (O l eq_refl)) as HP.
      rewrite s32_small by lia. destruct K.
      constructor; cbn [app sp_lock sp_cnt sp_pc]; try assumption; intros q; unfold upd; destruct (Z.eqb_spec q p) as [->|]; cbn; auto; try discriminate; try lia; try apply so_reg0; try apply so_pc0.
    + (* release *)
      inversion E; subst; clear E. specialize (O l eq_refl). specialize (L l eq_refl).
      exists (upd hl p (remove Z.eq_dec l (hl p))). destruct K.
      constructor; cbn [app sp_lock sp_cnt sp_pc].
      * intros q. unfold upd. destruct (Z.eqb_spec q p) as [->|]; [|auto].
        clear - so_nodup0. specialize (so_nodup0 p). induction (hl p) as [|x t IH]; [constructor|].
        inversion so_nodup0; subst. cbn. destruct (Z.eq_dec l x); [auto|]. constructor; [|auto].
        intros H. apply in_remove in H. tauto.
      * intros q m. cbn [inside]. unfold upd. rewrite (Z.eqb_sym p q). destruct (Z.eqb_spec q p) as [->|]; cbn [andb]; [|apply so_in0].
        destruct (Z.eqb_spec l m) as [->|Nm].
        -- split; [intros H; apply in_remove in H; tauto|discriminate].
        -- rewrite <- so_in0. split; [intros H; now apply in_remove in H|intros H; apply in_in_remove; auto].
      * intros q m. unfold upd. destruct (Z.eqb_spec q p) as [->|]; [|apply so_range0]. intros H. apply in_remove in H as [H _]. eauto.
      * intros m. unfold upd. destruct (m =? l); auto.
      * intros m. cbn [inside]. unfold upd. destruct (Z.eqb_spec m l) as [->|Nm].
        -- split; [intros _ q|reflexivity]. rewrite Z.eqb_refl, andb_true_r. destruct (Z.eqb_spec p q) as [|Nq]; [reflexivity|].
           destruct (inside q l tr) eqn:Q; [|reflexivity]. exfalso. apply Nq. now apply (so_one0 l).
        -- rewrite so_free0. destruct (Z.eqb_spec l m); [congruence|]. now setoid_rewrite andb_false_r.
      * intros m q r. cbn [inside]. destruct ((p =? q) && (l =? m)); [discriminate|]. destruct ((p =? r) && (l =? m)); [discriminate|]. apply so_one0.
      * intros q. unfold upd. destruct (Z.eqb_spec q p) as [->|]; [|apply so_cnt0]. cbn [uncounted].
        assert (LR : S (length (remove Z.eq_dec l (hl p))) = length (hl p)); [|lia].
        apply so_in0 in O. specialize (so_nodup0 p). clear - O so_nodup0. induction (hl p) as [|x t IH]; [destruct O|].
        inversion so_nodup0; subst. cbn. destruct (Z.eq_dec l x) as [->|].
        -- now rewrite notin_remove.
        -- cbn. rewrite IH; [reflexivity|assumption|]. destruct O; [congruence|assumption].
      * intros q. unfold upd. destruct (Z.eqb_spec q p) as [->|]; [exact I|apply so_reg0].
      * intros q m. unfold upd. cbn [inside]. destruct (Z.eqb_spec q p) as [->|N2]; [cbn; discriminate|].
        intros H. apply so_own0 in H. destruct (Z.eqb_spec p q); [congruence|exact H].
      * intros q m. unfold upd. destruct (Z.eqb_spec q p) as [->|]; [cbn; discriminate|apply so_pc0].
Qed.

Lemma spin_reach_ok : forall nl tr s, 0 <= nl < 2 ^ 31 -> spin_reach nl own_only tr s -> exists hl, spin_ok nl hl tr s.
Proof.
  intros nl tr s N H. induction H as [|tr s a s' ev H [hl K] A E].
  - exists (fun _ => []). apply spin_start_ok.
  - eapply spin_step_ok; eauto; destruct a; cbn; auto.
Qed.
