(** A program on eight windows behaves as on a machine with as many as it needs. *)
From Verif Require Import Model.Base Spec.SparcCpu Spec.SparcWindows Model.SparcEntry Proof.Tac Proof.SparcWinProof.

(** ** The shape of the stack *)
Lemma grow : forall K A, shape K A -> forall j i, (i < j)%nat -> (j < p_depth A)%nat -> p_sp A i + 64 <= p_sp A j.
Proof.
  intros K A H. induction j as [|j IH]; intros i Hi Hj; [lia|]. pose proof (sh_grow K A H j Hj).
  destruct (Nat.eq_dec i j) as [-> |]; [assumption|]. specialize (IH i ltac:(lia) ltac:(lia)). lia.
Qed.
Lemma sp_range : forall K A k, shape K A -> (k < p_depth A)%nat -> lo K <= p_sp A k /\ p_sp A k + 64 <= hi K.
Proof.
  intros K A k H Hk. pose proof (sh_lo K A H). pose proof (sh_hi K A H). split.
  - destruct k; [assumption|]. pose proof (grow K A H (S k) 0 ltac:(lia) Hk). lia.
  - destruct (Nat.eq_dec k (p_depth A - 1)) as [-> |]; [assumption|].
    pose proof (grow K A H (p_depth A - 1) k ltac:(lia) ltac:(lia)). lia.
Qed.
Lemma res_range : forall c, windows c -> 1 <= resident c <= 7.
Proof. intros c (Hc & Hi & _ & Hn & _). unfold resident, NW in *. clear - Hc Hi Hn. lia. Qed.

(** ** Registers *)
Lemma holds_reg : forall K c A r v, holds K c A -> 0 <= r < 32 -> p_reg A r = Some v -> reg c r = v.
Proof.
  intros K c A r v H Hr E. unfold p_reg in E. destruct (Z.eqb_spec r 0) as [-> |]; [now injection E as <-|].
  destruct (Z.ltb_spec r 8); [rewrite reg_glob by lia; apply (h_glob K c A H); [lia|exact E]|].
  destruct (Z.ltb_spec r 16); [apply (h_out K c A H); [lia|exact E]|].
  rewrite reg_win by lia. pose proof (sh_depth K A (h_shape K c A H)) as D.
  pose proof (h_fr K c A H 0%nat r v ltac:(lia) ltac:(lia) E) as F. pose proof (res_range c (h_win K c A H)) as R.
  unfold in_frame in F. destruct (Z.ltb_spec (Z.of_nat 0) (resident c)); [|lia]. rewrite Z.add_0_r in F.
  pose proof (h_win K c A H) as W. destruct W as (Hc & _). unfold NW in *. rewrite Z.mod_small in F by lia. exact F.
Qed.
Lemma holds_regs : forall K c A rs l, holds K c A -> p_regs A rs = Some l -> map (reg c) rs = l.
Proof.
  intros K c A. induction rs as [|r t IH]; intros l H E; cbn [p_regs map] in *; [now injection E as <-|].
  destruct (any_reg r) eqn:Er; [|discriminate]. unfold any_reg in Er. apply andb_prop in Er. destruct Er as [E1 E2].
  apply Z.leb_le in E1. apply Z.ltb_lt in E2.
  destruct (p_reg A r) as [v|] eqn:Ev; [|discriminate]. destruct (p_regs A t) as [l'|] eqn:El; [|discriminate]. injection E as <-.
  rewrite (holds_reg K c A r v H ltac:(lia) Ev), (IH l' H eq_refl). reflexivity.
Qed.
Lemma value_range : forall d, value_reg d = true -> 0 <= d < 32 /\ d <> 14 /\ d <> 30.
Proof.
  intros d H. unfold value_reg in H. repeat (apply andb_prop in H; destruct H as [H ?]).
  repeat match goal with H : negb _ = true |- _ => apply negb_true_iff in H; apply Z.eqb_neq in H end.
  apply Z.leb_le in H. match goal with H : (_ <? _) = true |- _ => apply Z.ltb_lt in H end. lia.
Qed.
Lemma win_same : forall c c', cwp c' = cwp c -> wim c' = wim c -> ET c' = ET c -> windows c -> windows c'.
Proof. intros c c' E1 E2 E3 H. unfold windows, invalid in *. rewrite E1, E2, E3. exact H. Qed.
Lemma res_same : forall c c', cwp c' = cwp c -> wim c' = wim c -> resident c' = resident c.
Proof. intros c c' E1 E2. unfold resident, invalid. now rewrite E1, E2. Qed.

Lemma sp_set_p : forall d v A k, d <> 14 -> d <> 30 -> p_sp (p_set d v A) k = p_sp A k.
Proof.
  intros d v A k N1 N2. unfold p_set, p_sp, set_fr, upd. destruct (d =? 0), (d <? 8), (d <? 16); try reflexivity; destruct k as [|[|k]]; cbn [p_out p_fr]; try reflexivity.
  - destruct (Z.eqb_spec 14 d); [congruence|reflexivity].
  - destruct (Z.eqb_spec 30 d); [congruence|reflexivity].
Qed.
Lemma p_set_rest : forall d v A, p_depth (p_set d v A) = p_depth A /\ p_mem (p_set d v A) = p_mem A.
Proof. intros d v A. unfold p_set. destruct (d =? 0), (d <? 8), (d <? 16); split; reflexivity. Qed.
Lemma shape_set : forall K A d v, shape K A -> value_reg d = true -> shape K (p_set d v A).
Proof.
  intros K A d v H Hd. destruct (value_range d Hd) as (Hr & N1 & N2). destruct (p_set_rest d v A) as [Dd Dm].
  destruct H as [Hp Hde Hsp Hfp Hlo Hhi Hg Hal Har Hfr].
  constructor; intros; rewrite ?Dd, ?Dm, ?(sp_set_p d v A) in * by assumption; auto.
  - rewrite <- Hsp. unfold p_set, upd. destruct (d =? 0), (d <? 8), (d <? 16); try reflexivity. cbn [p_out]. destruct (Z.eqb_spec 14 d); [congruence|reflexivity].
  - rewrite <- (Hfp k) by assumption. unfold p_set, upd, set_fr. destruct (d =? 0), (d <? 8), (d <? 16); try reflexivity. cbn [p_fr].
    destruct k; [|reflexivity]. destruct (Z.eqb_spec 30 d); [congruence|reflexivity].
  - eauto.
Qed.
Lemma holds_set : forall K c A d v, holds K c A -> value_reg d = true -> holds K (set_reg d v c) (p_set d (Some v) A).
Proof.
  intros K c A d v H Hd. destruct (value_range d Hd) as (Hr & N1 & N2).
  destruct (Z.eq_dec d 0) as [-> | N0]; [exact H|].
  destruct (p_set_rest d (Some v) A) as [Dd Dm]. pose proof (h_win K c A H) as W. pose proof (res_range c W) as R. destruct W as (Hc & _).
  constructor.
  - apply (win_same c); autorewrite with sprj; try reflexivity. exact (h_win K c A H).
  - apply shape_set; [exact (h_shape K c A H)|exact Hd].
  - rewrite Dd. rewrite (res_same c) by (autorewrite with sprj; reflexivity). exact (h_res K c A H).
  - intros r x Hx E. rewrite glob_set by lia. unfold p_set, upd in E. destruct (Z.eqb_spec d 0); [lia|].
    destruct (Z.ltb_spec d 8); [|destruct (Z.ltb_spec d 16)]; cbn [p_glob p_out p_fr] in E; destruct (Z.eqb_spec r d); try lia; try (now injection E); apply (h_glob K c A H); assumption.
  - intros r x Hx E. rewrite reg_set by lia. unfold p_set, upd in E. destruct (Z.eqb_spec d 0); [lia|].
    destruct (Z.ltb_spec d 8); [|destruct (Z.ltb_spec d 16)]; cbn [p_glob p_out p_fr] in E; destruct (Z.eqb_spec r d); try lia; try (now injection E); apply (h_out K c A H); assumption.
  - intros k r x Hk Hx E. rewrite Dd in Hk. unfold in_frame. rewrite (res_same c) by (autorewrite with sprj; reflexivity). rewrite cwp_set, mem_set, sp_set_p by assumption.
    assert (F : p_fr A k r = Some x -> (if Z.of_nat k <? resident c then win c ((cwp c + Z.of_nat k) mod NW) r else mem c (p_sp A k + 4 * (r - 16))) = x)
      by (intros E'; exact (h_fr K c A H k r x Hk Hx E')).
    destruct (Z.ltb_spec (Z.of_nat k) (resident c)) as [L|L].
    + rewrite win_set by lia. unfold NW in *.
      destruct (Z.eqb_spec ((cwp c + Z.of_nat k) mod 8) (below (cwp c))) as [Q|Q].
      { exfalso. unfold below, NW in Q. clear - Q L R Hc. lia. }
      rewrite andb_false_r. cbn [andb orb].
      unfold p_set, upd, set_fr in E. destruct (Z.eqb_spec d 0); [lia|].
      destruct (Z.leb_spec 16 d) as [L16|L16]; cbn [andb].
      * destruct (Z.ltb_spec d 8); [lia|]. destruct (Z.ltb_spec d 16); [lia|]. cbn [p_fr] in E.
        destruct (Z.eqb_spec ((cwp c + Z.of_nat k) mod 8) (cwp c)) as [Q'|Q'].
        -- assert (k = 0)%nat by (clear - Q' L R Hc; lia). subst k. cbn [andb]. destruct (Z.eqb_spec r d); [now injection E|apply F; exact E].
        -- destruct k; [exfalso; clear - Q' Hc; rewrite Z.add_0_r in Q'; rewrite Z.mod_small in Q' by lia; lia|]. apply F; exact E.
      * destruct (Z.ltb_spec d 8); [apply F; exact E|]. destruct (Z.ltb_spec d 16); [apply F; exact E|lia].
    + apply F. unfold p_set, upd, set_fr in E. destruct (Z.eqb_spec d 0); [lia|].
      destruct (Z.ltb_spec d 8); [exact E|]. destruct (Z.ltb_spec d 16); [exact E|]. cbn [p_fr] in E. destruct k; [lia|exact E].
  - intros a x E. rewrite mem_set, acc_set. apply (h_mem K c A H). rewrite Dm in E. exact E.
  - intros a Ha. rewrite acc_set. exact (h_acc K c A H a Ha).
  - intros a Ha. rewrite acc_set. exact (h_data K c A H a Ha).
Qed.

(** ** Room for a call *)
Lemma rest_refl : forall c, same_rest c c.
Proof. intros c. repeat split. Qed.
Lemma inv_pow : forall i, 0 <= i < 8 -> Z.log2 (2 ^ i) = i.
Proof. intros i Hi. apply Z.log2_pow2. lia. Qed.
Lemma room : forall K c A, holds K c A -> Z.testbit (wim c) (below (cwp c)) = true ->
  exists c', run overflow (trap c) = Some c' /\ holds K c' A /\ resident c' = 6 /\ same_rest c c'.
Proof.
  intros K c A H T. pose proof (h_win K c A H) as W. pose proof (res_range c W) as R. pose proof (h_shape K c A H) as Sh.
  pose proof W as (Hc & Hi & Hw & Hn & HET). unfold NW in *. pose proof (below_range (cwp c)) as Br.
  rewrite Hw, wim_bit in T by lia. apply Z.eqb_eq in T.
  assert (R7 : resident c = 7) by (unfold resident; rewrite T; unfold below, NW; clear - Hc; lia).
  pose proof (h_res K c A H) as D. rewrite R7 in D.
  assert (Fr : forall k r v, (k < 7)%nat -> 16 <= r < 32 -> p_fr A k r = Some v -> win c ((cwp c + Z.of_nat k) mod 8) r = v).
  { intros k r v Hk Hr E. pose proof (h_fr K c A H k r v ltac:(clear - Hk D; lia) Hr E) as F. unfold in_frame in F. rewrite R7 in F.
    destruct (Z.ltb_spec (Z.of_nat k) 7); [exact F|exfalso; clear - Hk H0; lia]. }
  assert (SP : win c ((cwp c + 5) mod 8) 30 = p_sp A 6).
  { apply (Fr 5%nat 30); [lia|lia|]. apply (sh_fp K A Sh). clear - D. lia. }
  pose proof (sp_range K A 6 Sh ltac:(clear - D; lia)) as Rg.
  destruct (overflow_ok c W T) as (c' & E & C' & W' & Rest & G' & V' & Min & Mout).
  { rewrite SP. apply (sh_align K A Sh). clear - D. lia. }
  { rewrite SP. intros a Ha. rewrite (h_acc K c A H a) by lia. lia. }
  rewrite SP in Min, Mout.
  assert (I' : invalid c' = (cwp c + 6) mod 8) by (unfold invalid; rewrite W'; apply inv_pow; apply Z.mod_pos_bound; lia).
  assert (R' : resident c' = 6) by (unfold resident, NW; rewrite I', C'; clear - Hc; lia).
  exists c'. split; [exact E|]. split; [|split; [exact R'|exact Rest]].
  destruct Rest as (Bits & _ & _ & _ & Acc).
  constructor.
  - unfold windows, NW. rewrite I', C', W'. unfold ET. rewrite Bits by lia. split; [exact Hc|]. split; [apply Z.mod_pos_bound; lia|].
    split; [reflexivity|]. split; [clear - Hc; lia|exact HET].
  - exact Sh.
  - rewrite R'. lia.
  - intros r v Hr Ev. rewrite G' by lia. exact (h_glob K c A H r v Hr Ev).
  - intros r v Hr Ev. rewrite reg_out by lia. rewrite C'. rewrite V' by (right; lia). rewrite <- reg_out by lia. exact (h_out K c A H r v Hr Ev).
  - intros k r v Hk Hr Ev. unfold in_frame. rewrite R', C'. unfold NW. destruct (Z.ltb_spec (Z.of_nat k) 6) as [L|L].
    + rewrite V'; [apply Fr; [clear - L; lia|exact Hr|exact Ev]|]. left. unfold below, NW. clear - L Hc. lia.
    + destruct (Nat.eq_dec k 6) as [-> | N].
      * rewrite Min by exact Hr. exact (Fr 6%nat r v ltac:(lia) Hr Ev).
      * rewrite Mout.
        -- pose proof (h_fr K c A H k r v Hk Hr Ev) as F. unfold in_frame in F. rewrite R7 in F.
           destruct (Z.ltb_spec (Z.of_nat k) 7) as [L7|L7]; [exfalso; clear - L7 L N; lia|exact F].
        -- pose proof (grow K A Sh k 6 ltac:(clear - L N; lia) Hk) as Gr. clear - Gr Hr. lia.
  - intros a v Ev. rewrite Acc. split; [|apply (h_mem K c A H a v Ev)]. rewrite Mout; [apply (h_mem K c A H a v Ev)|].
    intros Ha. rewrite (sh_area K A Sh 6 a) in Ev; [discriminate|clear - D; lia|exact Ha].
  - intros a Ha. rewrite Acc. exact (h_acc K c A H a Ha).
  - intros a Ha. rewrite Acc. exact (h_data K c A H a Ha).
Qed.

(** ** A frame to return to *)
Lemma back : forall K c A, holds K c A -> (2 <= p_depth A)%nat -> Z.testbit (wim c) (above (cwp c)) = true ->
  exists c', run underflow (trap c) = Some c' /\ holds K c' A /\ resident c' = 2 /\ same_rest c c'.
Proof.
  intros K c A H D2 T. pose proof (h_win K c A H) as W. pose proof (res_range c W) as R. pose proof (h_shape K c A H) as Sh.
  pose proof W as (Hc & Hi & Hw & Hn & HET). unfold NW in *. pose proof (above_range (cwp c)) as Br.
  rewrite Hw, wim_bit in T by lia. apply Z.eqb_eq in T.
  assert (R1 : resident c = 1) by (unfold resident; rewrite T; unfold above, NW; clear - Hc; lia).
  assert (C0 : (cwp c + Z.of_nat 0) mod 8 = cwp c) by (cbn [Z.of_nat]; clear - Hc; lia).
  assert (SP : win c (cwp c) 30 = p_sp A 1).
  { pose proof (h_fr K c A H 0%nat 30 (p_sp A 1) ltac:(lia) ltac:(lia) (sh_fp K A Sh 0 ltac:(lia))) as F. unfold in_frame in F. rewrite R1 in F.
    unfold NW in F. rewrite C0 in F. exact F. }
  pose proof (sp_range K A 1 Sh ltac:(lia)) as Rg.
  destruct (underflow_ok c W T) as (c' & E & C' & W' & Rest & G' & V' & Min & Mout).
  { rewrite SP. apply (sh_align K A Sh). lia. }
  { rewrite SP. intros a Ha. rewrite (h_acc K c A H a) by lia. lia. }
  rewrite SP in Min.
  assert (I' : invalid c' = (cwp c + 2) mod 8) by (unfold invalid; rewrite W'; apply inv_pow; apply Z.mod_pos_bound; lia).
  assert (R' : resident c' = 2) by (unfold resident, NW; rewrite I', C'; clear - Hc; lia).
  exists c'. split; [exact E|]. split; [|split; [exact R'|exact Rest]].
  destruct Rest as (Bits & _ & _ & _ & Acc).
  constructor.
  - unfold windows, NW. rewrite I', C', W'. unfold ET. rewrite Bits by lia. split; [exact Hc|]. split; [apply Z.mod_pos_bound; lia|].
    split; [reflexivity|]. split; [clear - Hc; lia|exact HET].
  - exact Sh.
  - rewrite R'. lia.
  - intros r v Hr Ev. rewrite G' by lia. exact (h_glob K c A H r v Hr Ev).
  - intros r v Hr Ev. rewrite reg_out by lia. rewrite C'.
    rewrite V'; [|unfold below, above, NW; clear - Hc; lia|right; lia|lia]. rewrite <- reg_out by lia. exact (h_out K c A H r v Hr Ev).
  - intros k r v Hk Hr Ev. pose proof (h_fr K c A H k r v Hk Hr Ev) as F. unfold in_frame in *. rewrite R', C'. rewrite R1 in F. unfold NW in *.
    destruct k as [|[|k]].
    + cbn [Z.ltb Z.of_nat Z.compare] in *. rewrite Z.add_0_r in *. rewrite Z.mod_small in * by lia.
      rewrite V'; [exact F|unfold above, NW; clear - Hc; lia|left; unfold below, NW; clear - Hc; lia|exact Hr].
    + change (Z.of_nat 1) with 1 in *. destruct (Z.ltb_spec 1 2); [|lia]. destruct (Z.ltb_spec 1 1); [lia|].
      change ((cwp c + 1) mod 8) with (above (cwp c)). rewrite Min by exact Hr. exact F.
    + destruct (Z.ltb_spec (Z.of_nat (S (S k))) 2); [lia|]. destruct (Z.ltb_spec (Z.of_nat (S (S k))) 1); [lia|]. rewrite Mout. exact F.
  - intros a v Ev. rewrite Acc, Mout. exact (h_mem K c A H a v Ev).
  - intros a Ha. rewrite Acc. exact (h_acc K c A H a Ha).
  - intros a Ha. rewrite Acc. exact (h_data K c A H a Ha).
Qed.

(** ** The windows move *)
Definition p_call (K : place) (A : prog) (n : Z) : prog :=
  mkProg (p_glob A) (fun r => if r =? 14 then Some (p_sp A 0 - n) else None)
    (fun k => match k with O => fun r => if 24 <=? r then p_out A (r - 16) else None | S j => p_fr A j end)
    (S (p_depth A)) (forget (p_sp A 0 - n) (p_sp A 0) (p_mem A)).
Lemma sp_call : forall K A n k, p_sp (p_call K A n) (S k) = p_sp A k.
Proof. intros K A n [|k]; reflexivity. Qed.
Lemma forget_none : forall a b m x v, forget a b m x = Some v -> m x = Some v /\ ~ a <= x < b.
Proof.
  intros a b m x v H. unfold forget in H. destruct (Z.leb_spec a x); destruct (Z.ltb_spec x b); cbn [andb] in H; try discriminate; split; try assumption; lia.
Qed.
Lemma forget_in : forall a b m x, (a <= x < b -> False) \/ True -> (~ a <= x < b -> m x = None) -> forget a b m x = None.
Proof.
  intros a b m x _ H. unfold forget. destruct (Z.leb_spec a x); destruct (Z.ltb_spec x b); cbn [andb]; try reflexivity; apply H; lia.
Qed.
Lemma shape_call : forall K A n, shape K A -> 64 <= n -> n mod 8 = 0 -> lo K <= p_sp A 0 - n -> shape K (p_call K A n).
Proof.
  intros K A n H Hn Hm Hl. destruct H as [Hp Hde Hsp Hfp Hlo Hhi Hg Hal Har Hfr].
  assert (D : (p_depth (p_call K A n) - 1 = S (p_depth A - 1))%nat) by (cbn [p_depth p_call]; lia).
  assert (S0 : p_sp (p_call K A n) 0 = p_sp A 0 - n) by reflexivity.
  constructor.
  - exact Hp.
  - cbn [p_depth p_call]. lia.
  - reflexivity.
  - intros [|k] Hk; cbn [p_depth p_call p_fr] in *.
    + exact Hsp.
    + rewrite sp_call. apply Hfp. lia.
  - rewrite S0. exact Hl.
  - rewrite D, sp_call. exact Hhi.
  - intros [|k] Hk; rewrite !sp_call; [rewrite S0; lia|]. apply Hg. cbn [p_depth p_call] in Hk. lia.
  - intros [|k] Hk; [rewrite S0|rewrite sp_call; apply Hal; cbn [p_depth p_call] in Hk; lia].
    pose proof (Hal 0%nat ltac:(lia)) as A0. clear - A0 Hm. lia.
  - intros [|k] a Hk Ha; cbn [p_depth p_call p_mem] in *; apply forget_in; auto; intros Ho.
    + rewrite S0 in Ha. exfalso. lia.
    + rewrite sp_call in Ha. apply (Har k); [lia|exact Ha].
  - intros a Ha. rewrite S0 in Ha. cbn [p_mem p_call]. apply forget_in; auto. intros Ho. apply Hfr. lia.
Qed.

Lemma down : forall K c A n, holds K c A -> resident c <= 6 -> 64 <= n -> n mod 8 = 0 -> lo K <= p_sp A 0 - n ->
  holds K (shift_down n c) (p_call K A n) /\ same_rest c (shift_down n c).
Proof.
  intros K c A n H R6 Hn Hm Hl. pose proof (h_win K c A H) as W. pose proof (res_range c W) as R. pose proof (h_shape K c A H) as Sh.
  pose proof W as (Hc & Hi & Hw & Hne & HET). unfold NW in *. pose proof (below_range (cwp c)) as Br.
  pose proof (sh_place K A Sh) as Pl. pose proof (sp_range K A 0 Sh (sh_depth K A Sh)) as Sr.
  assert (SP : reg c 14 = p_sp A 0) by (apply (h_out K c A H); [lia|exact (sh_sp K A Sh)]).
  set (c1 := set_psr (set_cwp (below (cwp c)) (psr c)) c).
  assert (C1 : cwp c1 = below (cwp c)) by (apply cwp_move; exact Br).
  assert (Ec : shift_down n c = set_reg 14 (p_sp A 0 - n) c1).
  { unfold shift_down. fold c1. rewrite SP. unfold u32. rewrite Z.mod_small by lia. reflexivity. }
  rewrite Ec. clear Ec. set (v := p_sp A 0 - n) in *.
  assert (C2 : cwp (set_reg 14 v c1) = below (cwp c)) by (rewrite cwp_set; exact C1).
  assert (I2 : invalid (set_reg 14 v c1) = invalid c) by (unfold invalid; rewrite wim_set; reflexivity).
  assert (R2 : resident (set_reg 14 v c1) = resident c + 1).
  { unfold resident in *. rewrite I2, C2. unfold below, NW in *. clear - Hc Hi Hne R6. lia. }
  split.
  - constructor.
    + unfold windows, NW. rewrite I2, C2, wim_set. split; [exact Br|]. split; [exact Hi|]. split; [exact Hw|]. split.
      * unfold resident in R6. unfold below, NW in *. clear - Hc Hi R6 Hne. lia.
      * unfold ET. rewrite psr_set. unfold c1. cbn [psr set_psr]. rewrite set_cwp_high by lia. exact HET.
    + apply shape_call; assumption.
    + rewrite R2. cbn [p_depth p_call]. pose proof (h_res K c A H). lia.
    + intros r x Hr E. rewrite glob_set by lia. destruct (Z.eqb_spec r 14); [lia|]. exact (h_glob K c A H r x Hr E).
    + intros r x Hr E. rewrite reg_set by lia. cbn [p_out p_call] in E. destruct (Z.eqb_spec r 14); [now injection E|discriminate].
    + intros k r x Hk Hr E. unfold in_frame. rewrite R2, C2, mem_set. unfold NW.
      assert (Wn : Z.of_nat k < resident c + 1 -> win (set_reg 14 v c1) ((below (cwp c) + Z.of_nat k) mod 8) r = win c ((below (cwp c) + Z.of_nat k) mod 8) r).
      { intros L. rewrite win_set by lia. rewrite C1. destruct (Z.eqb_spec ((below (cwp c) + Z.of_nat k) mod 8) (below (below (cwp c)))) as [Q|Q].
        - exfalso. unfold below, NW in Q. clear - Q L R6 Hc. lia.
        - rewrite andb_false_r. reflexivity. }
      destruct k as [|k].
      * destruct (Z.ltb_spec (Z.of_nat 0) (resident c + 1)) as [L|L]; [|exfalso; clear - L R; lia]. rewrite Wn by exact L.
        cbn [p_fr p_call] in E. destruct (Z.leb_spec 24 r) as [G|G]; [|discriminate].
        replace ((below (cwp c) + Z.of_nat 0) mod 8) with (below (cwp c)) by (cbn [Z.of_nat]; clear - Br; lia).
        pose proof (h_out K c A H (r - 16) x ltac:(lia) E) as F. rewrite reg_out in F by lia.
        replace (r - 16 + 16) with r in F by lia. exact F.
      * cbn [p_fr p_call p_depth] in E, Hk. pose proof (h_fr K c A H k r x ltac:(lia) Hr E) as F. unfold in_frame in F. rewrite sp_call.
        replace (Z.of_nat (S k) <? resident c + 1) with (Z.of_nat k <? resident c)
          by (destruct (Z.ltb_spec (Z.of_nat k) (resident c)); destruct (Z.ltb_spec (Z.of_nat (S k)) (resident c + 1)); try reflexivity; lia).
        destruct (Z.ltb_spec (Z.of_nat k) (resident c)) as [L|L]; [|exact F]. rewrite Wn by lia.
        unfold NW in F. replace ((below (cwp c) + Z.of_nat (S k)) mod 8) with ((cwp c + Z.of_nat k) mod 8) by (unfold below, NW; clear - Hc; lia). exact F.
    + intros a x E. rewrite mem_set, acc_set. cbn [p_mem p_call] in E. apply forget_none in E. exact (h_mem K c A H a x (proj1 E)).
    + intros a Ha. rewrite acc_set. exact (h_acc K c A H a Ha).
    + intros a Ha. rewrite acc_set. exact (h_data K c A H a Ha).
  - unfold same_rest. autorewrite with sprj. split; [|repeat split].
    intros b Hb _. unfold c1. cbn [psr set_psr]. apply set_cwp_high; lia.
Qed.

Definition p_ret (A : prog) : prog :=
  mkProg (p_glob A) (fun r => p_fr A O (r + 16)) (fun k => p_fr A (S k)) (p_depth A - 1) (forget (p_sp A 0) (p_sp A 1) (p_mem A)).
Lemma sp_ret : forall A k, p_sp (p_ret A) k = p_sp A (S k).
Proof. intros A [|k]; reflexivity. Qed.
Lemma shape_ret : forall K A, shape K A -> (2 <= p_depth A)%nat -> shape K (p_ret A).
Proof.
  intros K A H D. pose proof (sp_range K A 1 H ltac:(lia)) as S1. destruct H as [Hp Hde Hsp Hfp Hlo Hhi Hg Hal Har Hfr].
  constructor; cbn [p_depth p_ret].
  - exact Hp.
  - lia.
  - rewrite sp_ret. cbn [p_out p_ret]. apply Hfp. lia.
  - intros k Hk. rewrite sp_ret. cbn [p_fr p_ret]. apply Hfp. lia.
  - rewrite sp_ret. lia.
  - rewrite sp_ret. replace (S (p_depth A - 1 - 1)) with (p_depth A - 1)%nat by lia. exact Hhi.
  - intros k Hk. rewrite !sp_ret. apply Hg. lia.
  - intros k Hk. rewrite sp_ret. apply Hal. lia.
  - intros k a Hk Ha. rewrite sp_ret in Ha. cbn [p_mem p_ret]. apply forget_in; auto. intros Ho. apply (Har (S k)); [lia|exact Ha].
  - intros a Ha. rewrite sp_ret in Ha. cbn [p_mem p_ret]. apply forget_in; auto. intros Ho. apply Hfr. lia.
Qed.
Lemma up : forall K c A, holds K c A -> 2 <= resident c ->
  let c' := set_psr (set_cwp (above (cwp c)) (psr c)) c in holds K c' (p_ret A) /\ same_rest c c'.
Proof.
  intros K c A H R2 c'. pose proof (h_win K c A H) as W. pose proof (res_range c W) as R. pose proof (h_shape K c A H) as Sh.
  pose proof W as (Hc & Hi & Hw & Hne & HET). unfold NW in *. pose proof (above_range (cwp c)) as Ar.
  pose proof (h_res K c A H) as D.
  assert (C' : cwp c' = above (cwp c)) by (apply cwp_move; exact Ar).
  assert (I' : invalid c' = invalid c) by reflexivity.
  assert (R' : resident c' = resident c - 1).
  { unfold resident in *. rewrite I', C'. unfold above, NW in *. clear - Hc Hi Hne R2. lia. }
  split.
  - constructor.
    + unfold windows, NW. rewrite I', C'. split; [exact Ar|]. split; [exact Hi|]. split; [exact Hw|]. split.
      * unfold resident in R2. unfold above, NW in *. clear - Hc Hi R2 Hne. lia.
      * unfold ET, c'. cbn [psr set_psr]. rewrite set_cwp_high by lia. exact HET.
    + apply shape_ret; [exact Sh|lia].
    + rewrite R'. cbn [p_depth p_ret]. lia.
    + intros r x Hr E. exact (h_glob K c A H r x Hr E).
    + intros r x Hr E. rewrite reg_out by lia. rewrite C', below_above by exact Hc. cbn [p_out p_ret] in E.
      pose proof (holds_reg K c A (r + 16) x H ltac:(lia)) as F. rewrite reg_win in F by lia. apply F. unfold p_reg.
      destruct (Z.eqb_spec (r + 16) 0); [lia|]. destruct (Z.ltb_spec (r + 16) 8); [lia|]. destruct (Z.ltb_spec (r + 16) 16); [lia|exact E].
    + intros k r x Hk Hr E. cbn [p_depth p_ret p_fr] in Hk, E. pose proof (h_fr K c A H (S k) r x ltac:(lia) Hr E) as F.
      unfold in_frame in *. rewrite R', C', sp_ret. change (win c') with (win c). change (mem c') with (mem c).
      replace (Z.of_nat k <? resident c - 1) with (Z.of_nat (S k) <? resident c)
        by (destruct (Z.ltb_spec (Z.of_nat k) (resident c - 1)); destruct (Z.ltb_spec (Z.of_nat (S k)) (resident c)); try reflexivity; lia).
      destruct (Z.ltb_spec (Z.of_nat (S k)) (resident c)) as [L|L]; [|exact F].
      unfold NW in *. replace ((above (cwp c) + Z.of_nat k) mod 8) with ((cwp c + Z.of_nat (S k)) mod 8) by (unfold above, NW; clear - Hc; lia). exact F.
    + intros a x E. cbn [p_mem p_ret] in E. apply forget_none in E. exact (h_mem K c A H a x (proj1 E)).
    + intros a Ha. exact (h_acc K c A H a Ha).
    + intros a Ha. exact (h_data K c A H a Ha).
  - unfold same_rest, c'. cbn [psr yreg pc npc acc set_psr]. split; [|repeat split].
    intros b Hb _. apply set_cwp_high; lia.
Qed.

(** ** Steps and programs *)
Lemma rest_trans : forall c1 c2 c3, same_rest c1 c2 -> same_rest c2 c3 -> same_rest c1 c3.
Proof.
  intros c1 c2 c3 (B1 & Y1 & P1 & N1 & A1) (B2 & Y2 & P2 & N2 & A2). unfold same_rest. rewrite Y2, Y1, P2, P1, N2, N1.
  split; [|repeat split; intros a; now rewrite A2, A1]. intros n Hn H6. rewrite B2, B1 by assumption. reflexivity.
Qed.
Lemma rest_set : forall c d v, same_rest c (set_reg d v c).
Proof. intros c d v. unfold same_rest. autorewrite with sprj. repeat split. Qed.
Lemma may2 : forall c a, acc c a = 2 -> may c a = true.
Proof. intros c a H. unfold may. rewrite H. destruct (SUP c); reflexivity. Qed.
Lemma usable_free : forall K A a, shape K A -> usable K A a = true ->
  (forall k, (k < p_depth A)%nat -> ~ p_sp A k <= a < p_sp A k + 64) /\ ~ lo K - 84 <= a < p_sp A 0 /\ (lo K - 84 <= a < hi K \/ data K a = true) /\ a mod 4 = 0.
Proof.
  intros K A a Sh U. unfold usable in U. apply andb_prop in U. destruct U as [U4 U]. apply Z.eqb_eq in U4. apply orb_prop in U. destruct U as [U|U].
  - apply andb_prop in U. destruct U as [U Ud].
    assert (O : a < lo K - 84 \/ hi K <= a).
    { apply orb_prop in U. destruct U as [U|U]; [left; now apply Z.ltb_lt|right; now apply Z.leb_le]. }
    pose proof (sp_range K A 0 Sh (sh_depth K A Sh)) as R0. split; [|split; [lia|split; [now right|exact U4]]].
    intros k Hk. pose proof (sp_range K A k Sh Hk). lia.
  - apply andb_prop in U. destruct U as [U F]. apply andb_prop in U. destruct U as [U1 U2]. apply Z.leb_le in U1. apply Z.ltb_lt in U2.
    pose proof (sh_lo K A Sh). split; [|split; [lia|split; [left; lia|exact U4]]].
    intros k Hk Ha. rewrite forallb_forall in F. specialize (F k). rewrite in_seq in F. specialize (F ltac:(lia)).
    apply negb_true_iff in F. unfold in_area in F. apply andb_false_iff in F. destruct F as [F|F]; [apply Z.leb_gt in F|apply Z.ltb_ge in F]; lia.
Qed.
Lemma step_sim : forall K c A i A', holds K c A -> p_step K A i = Some A' ->
  exists c', c_step c i = Some c' /\ holds K c' A' /\ same_rest c c'.
Proof.
  intros K c A i A' H E. destruct i as [d rs f|d rs f|rs f g|n|d rs f]; cbn [p_step c_step] in *.
  - destruct (value_reg d) eqn:V; [|discriminate]. destruct (p_regs A rs) as [l|] eqn:L; [|discriminate]. injection E as <-.
    rewrite (holds_regs K c A rs l H L). eexists. split; [reflexivity|]. split; [now apply holds_set|apply rest_set].
  - destruct (value_reg d) eqn:V; [|discriminate]. destruct (p_regs A rs) as [l|] eqn:L; [|discriminate].
    destruct (f l mod 4 =? 0) eqn:M4; [|discriminate]. destruct (p_mem A (f l)) as [v|] eqn:M; [|discriminate]. injection E as <-.
    rewrite (holds_regs K c A rs l H L). destruct (h_mem K c A H (f l) v M) as [Mv Ma].
    unfold fine. rewrite M4, may2 by exact Ma. cbn [andb]. rewrite Mv.
    eexists. split; [reflexivity|]. split; [now apply holds_set|apply rest_set].
  - destruct (p_regs A rs) as [l|] eqn:L; [|discriminate]. destruct (usable K A (f l)) eqn:U; [|discriminate]. injection E as <-.
    rewrite (holds_regs K c A rs l H L). pose proof (h_shape K c A H) as Sh.
    destruct (usable_free K A (f l) Sh U) as (U1 & U2 & U3 & U4).
    assert (Ha : acc c (f l) = 2) by (destruct U3 as [U3|U3]; [now apply (h_acc K c A H)|now apply (h_data K c A H)]).
    unfold fine. rewrite U4, may2 by exact Ha. cbn [andb Z.eqb]. set (a := f l) in *. set (x := g l) in *.
    eexists. split; [reflexivity|]. split; [|unfold same_rest; cbn; repeat split].
    destruct Sh as [Hp Hde Hsp Hfp Hlo Hhi Hg Hal Har Hfr].
    constructor.
    + exact (h_win K c A H).
    + constructor; try assumption.
      * intros k b Hk Hb. cbn [p_mem p_sp p_out p_fr p_depth] in *. unfold upd. destruct (Z.eqb_spec b a) as [-> |]; [exfalso; exact (U1 k Hk Hb)|exact (Har k b Hk Hb)].
      * intros b Hb. cbn [p_mem p_sp p_out p_fr] in *. unfold upd. destruct (Z.eqb_spec b a) as [-> |]; [exfalso; exact (U2 Hb)|exact (Hfr b Hb)].
    + exact (h_res K c A H).
    + exact (h_glob K c A H).
    + exact (h_out K c A H).
    + intros k r v Hk Hr Ev. cbn [p_depth p_fr] in Hk, Ev. pose proof (h_fr K c A H k r v Hk Hr Ev) as F. unfold in_frame in *.
      change (resident (set_mem (upd (mem c) a x) c)) with (resident c). change (cwp (set_mem (upd (mem c) a x) c)) with (cwp c).
      change (p_sp {| p_glob := p_glob A; p_out := p_out A; p_fr := p_fr A; p_depth := p_depth A; p_mem := upd (p_mem A) a (Some x) |} k) with (p_sp A k).
      destruct (Z.of_nat k <? resident c); [exact F|]. cbn [mem set_mem]. unfold upd. destruct (Z.eqb_spec (p_sp A k + 4 * (r - 16)) a) as [Q|Q]; [|exact F].
      exfalso. apply (U1 k Hk). lia.
    + intros b v Ev. cbn [p_mem mem set_mem acc] in *. unfold upd in *. destruct (Z.eqb_spec b a) as [-> |]; [injection Ev as <-; split; [reflexivity|exact Ha]|].
      exact (h_mem K c A H b v Ev).
    + exact (h_acc K c A H).
    + exact (h_data K c A H).
  - destruct (64 <=? n) eqn:E1; cbn [andb] in E; [|discriminate]. destruct (n mod 8 =? 0) eqn:E2; cbn [andb] in E; [|discriminate].
    destruct (lo K <=? p_sp A 0 - n) eqn:E3; [|discriminate]. apply Z.leb_le in E1. apply Z.eqb_eq in E2. apply Z.leb_le in E3.
    injection E as <-. fold (p_call K A n). unfold do_save. destruct (Z.testbit (wim c) (below (cwp c))) eqn:T.
    + destruct (room K c A H T) as (c1 & R & H1 & Res & Re). rewrite R.
      assert (T1 : Z.testbit (wim c1) (below (cwp c1)) = false).
      { pose proof (h_win K c1 A H1) as (Hc & Hi & Hw & Hne & _). unfold NW in *. pose proof (below_range (cwp c1)). rewrite Hw, wim_bit by lia.
        apply Z.eqb_neq. intros Q. unfold resident in Res. rewrite Q in Res. unfold below, NW in Res. clear - Res Hc. lia. }
      rewrite T1. destruct (down K c1 A n H1) as [H2 Re2]; try assumption; [lia|]. eexists. split; [reflexivity|]. split; [exact H2|]. exact (rest_trans _ _ _ Re Re2).
    + destruct (down K c A n H) as [H2 Re2]; try assumption.
      { pose proof (h_win K c A H) as (Hc & Hi & Hw & Hne & _). unfold NW in *. pose proof (below_range (cwp c)). rewrite Hw, wim_bit in T by lia.
        apply Z.eqb_neq in T. unfold resident. unfold below, NW in *. clear - T Hc Hi Hne. lia. }
      eexists. split; [reflexivity|]. split; [exact H2|exact Re2].
  - destruct (p_depth A) as [|[|e]] eqn:D; try discriminate. destruct (value_reg d) eqn:V; [|discriminate].
    destruct (p_regs A rs) as [l|] eqn:L; [|discriminate].
    assert (EA : A' = p_set d (Some (f l)) (p_ret A)) by (injection E as <-; unfold p_ret; rewrite D; reflexivity). clear E. subst A'.
    assert (Fin : forall c1, holds K c1 A -> 2 <= resident c1 -> same_rest c c1 ->
      holds K (shift_up d (f (map (reg c1) rs)) c1) (p_set d (Some (f l)) (p_ret A)) /\ same_rest c (shift_up d (f (map (reg c1) rs)) c1)).
    { intros c1 H1 R1 Re. rewrite (holds_regs K c1 A rs l H1 L). destruct (up K c1 A H1 R1) as [H2 Re2]. unfold shift_up. split.
      - now apply holds_set.
      - apply rest_trans with c1; [exact Re|]. eapply rest_trans; [exact Re2|apply rest_set]. }
    unfold do_restore. destruct (Z.testbit (wim c) (above (cwp c))) eqn:T.
    + destruct (back K c A H ltac:(lia) T) as (c1 & R & H1 & Res & Re). rewrite R.
      assert (T1 : Z.testbit (wim c1) (above (cwp c1)) = false).
      { pose proof (h_win K c1 A H1) as (Hc & Hi & Hw & Hne & _). unfold NW in *. pose proof (above_range (cwp c1)). rewrite Hw, wim_bit by lia.
        apply Z.eqb_neq. intros Q. unfold resident in Res. rewrite Q in Res. unfold above, NW in Res. clear - Res Hc. lia. }
      rewrite T1. destruct (Fin c1 H1 ltac:(lia) Re) as [H2 Re2]. eexists. split; [reflexivity|]. split; [exact H2|exact Re2].
    + destruct (Fin c H) as [H2 Re2]; [|apply rest_refl|].
      { pose proof (h_win K c A H) as (Hc & Hi & Hw & Hne & _). unfold NW in *. pose proof (above_range (cwp c)). rewrite Hw, wim_bit in T by lia.
        apply Z.eqb_neq in T. unfold resident. unfold above, NW in *. clear - T Hc Hi Hne. lia. }
      eexists. split; [reflexivity|]. split; [exact H2|exact Re2].
Qed.
Lemma run_sim : forall K l c A A', holds K c A -> p_run K A l = Some A' ->
  exists c', c_run c l = Some c' /\ holds K c' A' /\ same_rest c c'.
Proof.
  intros K. induction l as [|i t IH]; intros c A A' H E; cbn [p_run c_run] in *.
  - injection E as <-. exists c. split; [reflexivity|]. split; [exact H|apply rest_refl].
  - destruct (p_step K A i) as [A1|] eqn:S1; [|discriminate]. destruct (step_sim K c A i A1 H S1) as (c1 & R1 & H1 & Re1). rewrite R1.
    destruct (IH c1 A1 A' H1 E) as (c2 & R2 & H2 & Re2). exists c2. split; [exact R2|]. split; [exact H2|]. exact (rest_trans _ _ _ Re1 Re2).
Qed.
