(** Proofs about threads of the PowerPC port. *)
From Verif Require Import Model.Base Spec.PpcCpu Model.PpcEntry Model.PpcThread Proof.PpcEntryProof Proof.Tac.

Local Arguments upd {A} f i v !j /.
(** Where pok_context_switch keeps r2 and r13 to r31. *)
Definition place (r : Z) : Z := if r =? 2 then 12 else 16 + 4 * (r - 13).
Definition kept (r : Z) : Prop := r = 2 \/ 13 <= r < 32.
Ltac kept_cases r H K := assert (r = 2 \/ r = 13 \/ r = 14 \/ r = 15 \/ r = 16 \/ r = 17 \/ r = 18 \/ r = 19 \/ r = 20 \/ r = 21 \/ r = 22 \/ r = 23 \/ r = 24 \/ r = 25 \/
  r = 26 \/ r = 27 \/ r = 28 \/ r = 29 \/ r = 30 \/ r = 31) as K by (unfold kept in H; clear - H; lia).

(** The frame of a thread that was switched away. *)
Definition parked (b : Z) (c : ppc) (m : Z -> Z) : Prop :=
  m b = gpr c 1 /\ m (b + 8) = spr c CR /\ m (gpr c 1 + 4) = spr c LR /\ forall r, kept r -> m (b + place r) = gpr c r.

Definition switch_saved (c : ppc) : list (Z * Z) :=
  [(0, gpr c 1); (8, spr c CR); (12, gpr c 2); (16, gpr c 13); (20, gpr c 14); (24, gpr c 15); (28, gpr c 16); (32, gpr c 17); (36, gpr c 18); (40, gpr c 19); (44, gpr c 20);
   (48, gpr c 21); (52, gpr c 22); (56, gpr c 23); (60, gpr c 24); (64, gpr c 25); (68, gpr c 26); (72, gpr c 27); (76, gpr c 28); (80, gpr c 29); (84, gpr c 30); (88, gpr c 31)].
Definition save1 : list instr := firstn 3 switch_save.
Definition save2 : list instr := skipn 3 switch_save.
Lemma save1_ok : forall c, exists c1, run save1 c = Some c1 /\ gpr c1 1 = gpr c 1 - 96 /\ (forall r, r <> 0 -> r <> 1 -> gpr c1 r = gpr c r) /\ spr c1 = spr c /\ pc c1 = pc c /\
  mem c1 = upd (upd (mem c) (gpr c 1 + 4) (spr c LR)) (gpr c 1 + -96) (gpr c 1).
Proof.
  intros [g s p m]. go save1. split; [unfold upd; cbn [Z.eqb]; reflexivity|]. split; [intros r A B; eqbs|]. repeat split.
Qed.
Lemma save2_ok : forall c, exists c1, run save2 c = Some c1 /\ (forall r, r <> 0 -> gpr c1 r = gpr c r) /\ spr c1 = spr c /\ pc c1 = pc c /\
  mem c1 = stores (mem c) (gpr c 1) (tl (switch_saved c)).
Proof. intros [g s p m]. go save2. split; [intros r A; eqbs|]. repeat split. Qed.
Lemma load_ok : forall c, let b := gpr c 1 in exists c1, run switch_load c = Some c1 /\ (forall r, kept r -> gpr c1 r = mem c (b + place r)) /\ gpr c1 1 = mem c b /\
  spr c1 CR = mem c (b + 8) /\ (forall q, q <> CR -> spr c1 q = spr c q) /\ mem c1 = mem c /\ pc c1 = pc c.
Proof.
  intros [g s p m]. go switch_load. split.
  - intros r Hr. kept_cases r Hr K. clear Hr. repeat (destruct K as [-> | K]; [reflexivity|]). subst r. reflexivity.
  - split; [cbn; rewrite Z.add_0_r; reflexivity|]. split; [reflexivity|]. split; [|split; reflexivity]. intros q Hq. eqbs.
Qed.

(** What pok_context_switch does, for any contents of the new context. *)
Lemma switch_exec : forall c, let b := gpr c 1 - 96 in let slot := gpr c 3 in let new := gpr c 4 in exists c',
  run context_switch c = Some c' /\
  (forall a, a <> slot -> a < b \/ b + 104 <= a -> mem c' a = mem c a) /\ mem c' slot = b /\ (slot < b \/ b + 104 <= slot -> parked b c (mem c')) /\
  (forall r, kept r -> gpr c' r = mem c' (new + place r)) /\ gpr c' 1 = mem c' new /\ spr c' CR = mem c' (new + 8) /\
  pc c' = mem c' (mem c' new + 4) /\ (forall q, q <> CR -> q <> LR -> spr c' q = spr c q).
Proof.
  intros c b slot new. destruct (save1_ok c) as (c1 & R1 & A1 & AG & AS & AP & AM). destruct (save2_ok c1) as (c2 & R2 & BG & BS & BP & BM).
  set (c3 := mkPpc (upd (gpr c2) 1 (gpr c2 4)) (spr c2) (pc c2) (upd (mem c2) (gpr c2 3 + 0) (gpr c2 1))).
  destruct (load_ok c3) as (c4 & R4 & D & D1 & DC & DS & DM & DP).
  set (v := mem c4 (gpr c4 1 + 4)).
  set (c5 := mkPpc (upd (gpr c4) 0 v) (upd (spr c4) LR v) v (mem c4)). exists c5.
  assert (G3 : gpr c2 3 = slot) by (rewrite BG, AG by lia; reflexivity). assert (G4 : gpr c2 4 = new) by (rewrite BG, AG by lia; reflexivity).
  assert (G1 : gpr c2 1 = b) by (rewrite BG by lia; exact A1).
  assert (M5 : mem c5 = upd (mem c2) slot b) by (unfold c5; cbn [mem]; rewrite DM; unfold c3; cbn [mem]; rewrite G3, G1, Z.add_0_r; reflexivity).
  assert (N : gpr c3 1 = new) by (unfold c3; cbn [gpr]; rewrite upd_same; exact G4).
  split.
  { change context_switch with (save1 ++ save2 ++ switch_stack ++ switch_load ++ switch_return). rewrite run_app by reflexivity. rewrite R1.
    rewrite run_app by reflexivity. rewrite R2. rewrite run_app by reflexivity. change (run switch_stack c2) with (Some c3). cbv beta iota.
    rewrite run_app by reflexivity. rewrite R4. reflexivity. }
  assert (MB : mem c2 = stores (upd (upd (mem c) (gpr c 1 + 4) (spr c LR)) b (gpr c 1)) b (tl (switch_saved c1))) by (rewrite BM, A1, AM; reflexivity).
  split.
  { intros a Ha Hb. rewrite M5, upd_other by exact Ha. rewrite MB. rewrite stores_out.
    - rewrite upd_other by (unfold b in *; lia). apply upd_other. unfold b in Hb. lia.
    - intros x Hx. cbn [tl switch_saved In] in Hx. repeat (destruct Hx as [<- | Hx]; [cbn [fst]; lia|]). contradiction. }
  split; [rewrite M5; apply upd_same|]. split.
  { intros HS.
    assert (K : forall k, 0 <= k < 104 -> mem c5 (b + k) = found k (tl (switch_saved c1)) (upd (upd (mem c) (gpr c 1 + 4) (spr c LR)) b (gpr c 1) (b + k))).
    { intros k Hk. rewrite M5, upd_other by lia. rewrite MB. apply stores_at. }
    unfold parked. split; [pose proof (K 0 ltac:(lia)) as E; rewrite Z.add_0_r in E; rewrite E; cbn; apply upd_same|].
    split; [rewrite K by lia; cbn; now rewrite AS|]. split.
    { replace (gpr c 1 + 4) with (b + 100) by (unfold b; lia). rewrite K by lia. unfold found. cbn [tl switch_saved fold_left fst snd Z.eqb Pos.eqb].
      rewrite upd_other by lia. replace (gpr c 1 + 4) with (b + 100) by (unfold b; lia). apply upd_same. }
    intros r Hr. kept_cases r Hr KK. assert (GR : gpr c1 r = gpr c r) by (apply AG; unfold kept in Hr; lia). rewrite <- GR. clear - K KK.
    repeat (destruct KK as [-> | KK]; [rewrite K by (cbn; lia); reflexivity|]). subst r. rewrite K by (cbn; lia). reflexivity. }
  split; [intros r Hr; unfold c5; cbn [gpr mem]; rewrite DM, upd_other by (unfold kept in Hr; lia); rewrite D by exact Hr; now rewrite N|].
  split; [unfold c5; cbn [gpr mem]; rewrite upd_other by lia; rewrite DM, D1; now rewrite N|].
  split; [unfold c5; cbn [spr mem]; rewrite upd_other by discriminate; rewrite DM, DC; now rewrite N|].
  split; [unfold c5; cbn [pc mem]; unfold v; rewrite D1, N, DM; reflexivity|].
  intros q Q1 Q2. unfold c5. cbn [spr]. rewrite upd_other by exact Q2. rewrite DS by exact Q1. unfold c3. cbn [spr]. now rewrite BS, AS.
Qed.

Lemma zero_in : forall n p m k, 0 <= k < Z.of_nat n -> zero_words n p m (p + 4 * k) = 0.
Proof.
  induction n as [|n IH]; intros p m k Hk; [lia|]. cbn [zero_words]. destruct (Z.eq_dec k 0) as [-> | N].
  - clear IH Hk. assert (G : forall n q m, p < q -> zero_words n q m p = m p).
    { clear. induction n as [|n IH]; intros q m Hq; [reflexivity|]. cbn [zero_words]. rewrite IH by lia. apply upd_other. lia. }
    replace (p + 4 * 0) with p by lia. rewrite G by lia. apply upd_same.
  - replace (p + 4 * k) with (p + 4 + 4 * (k - 1)) by lia. apply IH. lia.
Qed.
Lemma zero_out : forall n p m a, a < p \/ p + 4 * Z.of_nat n <= a -> zero_words n p m a = m a.
Proof.
  induction n as [|n IH]; intros p m a Ha; [reflexivity|]. cbn [zero_words]. rewrite IH by lia. apply upd_other. lia.
Qed.
