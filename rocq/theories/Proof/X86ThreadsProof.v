(** Contexts survive until their thread runs again. *)
From Verif Require Import Model.Base Spec.X86Cpu Model.X86Entry Spec.X86Threads Proof.Tac Proof.X86EntryProof.

(** The words that pok_context_switch pushes. *)
Definition frame_mem (c : cpu) (label : Z) : Z -> Z :=
  let E := esp c in let g := gp c in
  upd (upd (upd (upd (upd (upd (upd (upd (upd (upd (upd (mem c) (E - 4) (efl c)) (E - 8) (sel (cs c))) (E - 12) label)
    (E - 16) (eax g)) (E - 20) (ecx g)) (E - 24) (edx g)) (E - 28) (ebx g)) (E - 32) (E - 12)) (E - 36) (ebp g))
    (E - 40) (esi g)) (E - 44) (edi g).

Lemma push_mk : forall v g e i f c s d x fs gs fp m e0 t,
  push v (mkCpu g e i f c s d x fs gs fp m e0 t) = mkCpu g (e - 4) i f c s d x fs gs fp (upd m (e - 4) v) e0 t.
Proof. reflexivity. Qed.
Lemma set_mk : forall g e i f c s d x fs gs fp m e0 t,
  (forall v, set_esp v (mkCpu g e i f c s d x fs gs fp m e0 t) = mkCpu g v i f c s d x fs gs fp m e0 t) /\
  (forall v, set_gp v (mkCpu g e i f c s d x fs gs fp m e0 t) = mkCpu v e i f c s d x fs gs fp m e0 t) /\
  (forall v, set_mem v (mkCpu g e i f c s d x fs gs fp m e0 t) = mkCpu g e i f c s d x fs gs fp v e0 t).
Proof. repeat split. Qed.
Definition set1 g e i f c s d x fs gs fp m e0 t := proj1 (set_mk g e i f c s d x fs gs fp m e0 t).
Definition set2 g e i f c s d x fs gs fp m e0 t := proj1 (proj2 (set_mk g e i f c s d x fs gs fp m e0 t)).
Definition set3 g e i f c s d x fs gs fp m e0 t := proj2 (proj2 (set_mk g e i f c s d x fs gs fp m e0 t)).
Lemma switch_exec : forall c label s new m, mem c (esp c + 4) = s -> mem c (esp c + 8) = new ->
  (s < esp c - 44 \/ esp c + 12 <= s) -> gdt c 1 = Some (0, 0) ->
  m = upd (frame_mem c label) s (esp c - 44) -> m (new + 36) = 8 -> cs c = mkS 8 0 0 ->
  exec_all (context_switch label) c = Some (mkCpu
    (mkGp (m (new + 28)) (m (new + 24)) (m (new + 20)) (m (new + 16)) (m (new + 8)) (m (new + 4)) (m new))
    (new + 44) (m (new + 32)) (m (new + 40)) (mkS 8 0 0) (ss c) (ds c) (es c) (fs c) (gs c) (fpu c) m (esp0 c) (gdt c)).
Proof.
  intros c label s new m H4 H8 HS HG HM H36 HC. unfold context_switch.
  assert (X1 : exec_all [Pushf; PushCs; PushL label; Pusha] c =
    Some (set_mem (frame_mem c label) (set_esp (esp c - 44) c))).
  { clear. cpu. unfold frame_mem, set_mem, set_esp. cbv zeta. destruct c. cpu. rewrite !push_mk. cpu.
    replace (esp - 4 - 4) with (esp - 8) by lia. replace (esp - 8 - 4) with (esp - 12) by lia.
    replace (esp - 12 - 4) with (esp - 16) by lia. replace (esp - 16 - 4) with (esp - 20) by lia.
    replace (esp - 20 - 4) with (esp - 24) by lia. replace (esp - 24 - 4) with (esp - 28) by lia.
    replace (esp - 28 - 4) with (esp - 32) by lia. replace (esp - 32 - 4) with (esp - 36) by lia.
    replace (esp - 36 - 4) with (esp - 40) by lia. replace (esp - 40 - 4) with (esp - 44) by lia. reflexivity. }
  change [Pushf; PushCs; PushL label; Pusha; LoadEbx 48; StoreEsp; LoadEsp 52; Popa; Iret] with
    ([Pushf; PushCs; PushL label; Pusha] ++ [LoadEbx 48; StoreEsp; LoadEsp 52; Popa; Iret]).
  rewrite exec_app, X1. clear X1. unfold set_mem, set_esp. set (fm := frame_mem c label) in *. cpu. unfold top, set_ebx. cpu.
  assert (R4 : fm (esp c - 44 + 48) = s).
  { unfold fm, frame_mem. cbv zeta. rd. rewrite <- H4. f_equal. lia. }
  rewrite R4. rewrite <- HM.
  assert (R8 : m (esp c - 44 + 52) = new).
  { rewrite HM. rewrite upd_other by lia. unfold fm, frame_mem. cbv zeta. rd. rewrite <- H8. f_equal. lia. }
  rewrite R8. replace (new + 0) with new by lia.
  rewrite !set2, !set3, !set1, !set2, !set1. unfold iret, top. cbn [gp esp eip efl cs ss ds es fs gs fpu mem esp0 gdt].
  replace (new + 32 + 4) with (new + 36) by lia. replace (new + 32 + 0) with (new + 32) by lia.
  replace (new + 32 + 8) with (new + 40) by lia.  rewrite H36, HC. unfold cpl.
  cbn [gp esp eip efl cs ss ds es fs gs fpu mem esp0 gdt sel].
  change (8 mod 4) with 0. cbn [Z.ltb Z.compare]. rewrite (load_kcode _ HG). cbn [dpl Z.eqb orb negb].
  change (8 <? 4) with false. cbn [orb]. unfold set_esp, set_eip, set_efl, set_cs.
  cbn [gp esp eip efl cs ss ds es fs gs fpu mem esp0 gdt].
  replace (new + 32 + 12) with (new + 44) by lia. reflexivity.
Qed.

Section History.
  Variables (L : layout) (label : Z).
  Hypothesis Sep : separated L.

  Lemma work_ready : forall s c', ready L s -> works L (cur s) (proc s) c' -> ready L (mkSys (cur s) c' (snaps s)).
  Proof.
    intros s c' [RT R] (W1 & W2 & _). split; [exact RT|]. intros u Tu Hu. cbn [cur proc snaps] in *. specialize (R u Tu Hu). unfold context_of in *. cbv zeta in *.
    rewrite (W1 u Tu Hu). set (S := mem (proc s) (slot L u)) in *.
    destruct R as (A1 & A2 & A3 & B).
    assert (K : forall a, S <= a < hi L u -> mem c' a = mem (proc s) a) by (intros a Ha; apply (W2 u); assumption).
    rewrite !K by lia. repeat (split; [tauto|]). destruct B as (B0 & B1 & B2 & B3 & B4 & B5 & B6 & B7 & B8 & B9 & B10).
    intros a Ha. rewrite K by lia. now apply B10.
  Qed.

  (** What a switch writes: the frame below esp and the slot. *)
  Definition after (c : cpu) (t : Z) : Z -> Z := upd (frame_mem c label) (slot L t) (esp c - 44).
  Lemma after_other : forall c t a, (a < esp c - 44 \/ esp c <= a) -> a <> slot L t -> after c t a = mem c a.
  Proof. intros c t a Ha Hs. unfold after, frame_mem. cbv zeta. rd. reflexivity. Qed.
  Lemma slot_apart : forall t u a, thread L t -> thread L u -> lo L u <= a < hi L u -> a <> slot L t.
  Proof. intros t u a Ht Hu Ha E. destruct Sep as (_ & _ & S3). specialize (S3 t u Ht Hu). lia. Qed.
  Lemma others_kept : forall c t u a, thread L t -> thread L u -> u <> t -> lo L t + 44 <= esp c -> esp c + 12 <= hi L t ->
    lo L u <= a < hi L u -> after c t a = mem c a.
  Proof.
    intros c t u a Tt Tu Hu H1 H2 Ha. apply after_other; [|apply (slot_apart t u a Tt Tu Ha)].
    destruct Sep as (S1 & _). specialize (S1 t u Tt Tu ltac:(congruence)). lia.
  Qed.
  Lemma slots_kept : forall c t u, thread L t -> thread L u -> u <> t -> lo L t + 44 <= esp c -> esp c + 12 <= hi L t ->
    after c t (slot L u) = mem c (slot L u).
  Proof.
    intros c t u Tt Tu Hu H1 H2. destruct Sep as (_ & S2 & S3). apply after_other; [|apply S2; congruence].
    specialize (S3 u t Tu Tt). lia.
  Qed.

  Lemma context_kept : forall c t u n, thread L t -> thread L u -> u <> t -> lo L t + 44 <= esp c -> esp c + 12 <= hi L t ->
    context_of L u n (mem c) -> context_of L u n (after c t).
  Proof.
    intros c t u n Tt Tu Hu H1 H2 C. unfold context_of in *. cbv zeta in *. rewrite (slots_kept c t u Tt Tu Hu H1 H2).
    set (S := mem c (slot L u)) in *. destruct C as (A1 & A2 & A3 & B).
    assert (K : forall a, S <= a < hi L u -> after c t a = mem c a)
      by (intros a Ha; apply (others_kept c t u); [exact Tt|exact Tu|exact Hu|exact H1|exact H2|lia]).
    rewrite !K by lia. repeat (split; [tauto|]). destruct B as (_ & _ & _ & _ & _ & _ & _ & _ & _ & _ & B10).
    intros a Ha. rewrite K by lia. now apply B10.
  Qed.

  Lemma own_context : forall c t, thread L t -> lo L t + 44 <= esp c -> esp c + 12 <= hi L t -> sel (cs c) = 8 ->
    context_of L t (mkSnap (gp c) (esp c) label (efl c) (mem c)) (after c t).
  Proof.
    intros c t Tt H1 H2 Hc. unfold context_of. cbv zeta.
    assert (E : after c t (slot L t) = esp c - 44) by (unfold after; apply upd_same). rewrite E.
    assert (K : forall a, lo L t <= a < hi L t -> after c t a = frame_mem c label a)
      by (intros a Ha; unfold after; apply upd_other; apply (slot_apart t t a Tt Tt Ha)).
    cbn [sn_gp sn_esp sn_eip sn_efl sn_mem]. rewrite !K by lia. unfold frame_mem. cbv zeta.
    split; [lia|]. split; [lia|]. split; [lia|].
    repeat (split; [rd; try reflexivity; assumption|]).
    intros a Ha. rewrite K by lia. unfold frame_mem. cbv zeta. rd. reflexivity.
  Qed.

  (** A switch from a ready state works, and the thread goes on. *)
  Lemma switch_one : forall c t u n, thread L t -> thread L u -> context_of L u n (mem c) -> u <> t -> calls L t u c ->
    gdt c 1 = Some (0, 0) -> cs c = mkS 8 0 0 ->
    exists c', exec_all (context_switch label) c = Some c' /\ goes_on L u n c' /\
      mem c' = after c t /\ fpu c' = fpu c /\ fs c' = fs c /\ gs c' = gs c /\ gdt c' = gdt c.
  Proof.
    intros c t u n Tt Tu R Hu (C1 & C2 & C3 & C4) HG HC.
    pose proof (context_kept c t u _ Tt Tu Hu C1 C2 R) as K. unfold context_of in K. cbv zeta in K.
    rewrite (slots_kept c t u Tt Tu Hu C1 C2) in K. set (S := mem c (slot L u)) in *.
    destruct K as (K1 & K2 & K3 & K4 & K5 & K6 & K7 & K8 & K9 & K10 & K11 & K12 & K13 & K14).
    pose proof (switch_exec c label (slot L t) S (after c t) C3 C4) as X.
    destruct Sep as (_ & _ & S3). specialize (S3 t t Tt Tt).
    specialize (X ltac:(lia) HG eq_refl K12 HC). eexists. split; [exact X|].
    split; [|cbn; auto]. unfold goes_on. cbn [gp esp eip efl cs mem].
    rewrite K4, K5, K6, K7, K8, K9, K10, K11, K13. split; [now destruct (sn_gp n)|].
    split; [lia|]. repeat split. exact K14.
  Qed.

  Lemma switch_ok : forall s u, ready L s -> thread L u -> u <> cur s -> calls L (cur s) u (proc s) ->
    gdt (proc s) 1 = Some (0, 0) -> cs (proc s) = mkS 8 0 0 ->
    exists c', exec_all (context_switch label) (proc s) = Some c' /\ goes_on L u (snaps s u) c' /\
      mem c' = after (proc s) (cur s).
  Proof.
    intros s u [RT R] Tu Hu C HG HC. destruct (switch_one (proc s) (cur s) u (snaps s u) RT Tu (R u Tu Hu) Hu C HG HC) as (c' & A & B & D & _).
    exists c'. split; [exact A|]. split; [exact B|exact D].
  Qed.

  Lemma step_ready : forall s s', ready L s -> sstep L label s s' -> ready L s'.
  Proof.
    intros s s' R H. inversion H as [s0 c' W|s0 u c' Tu Hu Hc HG HC EX]; subst.
    - now apply work_ready.
    - destruct (switch_ok s u R Tu Hu Hc HG HC) as (c2 & E2 & _ & M). rewrite EX in E2. injection E2 as <-.
      destruct Hc as (C1 & C2 & _). destruct R as [RT R]. split; [exact Tu|]. intros v Tv Hv. cbn [cur proc snaps] in *. rewrite M.
      destruct (Z.eq_dec v (cur s)) as [-> | N].
      + rewrite upd_same. apply own_context; [exact RT|exact C1|exact C2|now rewrite HC].
      + rewrite upd_other by exact N. apply context_kept; auto.
  Qed.
  Lemma reach_ready : forall s0 s, ready L s0 -> sreach L label s0 s -> ready L s.
  Proof. intros s0 s R H. induction H as [|s s' _ IH ST]; [exact R|]. now apply (step_ready s). Qed.
End History.

(** ** A new thread *)
Lemma write_other : forall l m a x, (x < a \/ a + 4 * Z.of_nat (length l) <= x) -> write_words m a l x = m x.
Proof.
  intros l. induction l as [|w l IH]; intros m a x H; [reflexivity|]. cbn [write_words].
  rewrite IH by (cbn [length] in H; lia). apply upd_other. cbn [length] in H. lia.
Qed.
Lemma write_at : forall l m a k, (k < length l)%nat -> write_words m a l (a + 4 * Z.of_nat k) = nth k l 0.
Proof.
  intros l. induction l as [|w l IH]; intros m a k H; [cbn in H; lia|]. cbn [write_words]. destruct k as [|k].
  - cbn [nth]. rewrite Z.mul_0_r, Z.add_0_r. rewrite write_other by lia. apply upd_same.
  - cbn [nth]. cbn [length] in H. rewrite <- (IH (upd m a w) (a + 4) k) by lia. f_equal. lia.
Qed.

Definition start_regs : gprs := mkGp 0 0 0 0 0 0 0.
Lemma created : forall stack dispatch pid entry aff usp a1 a2 m sp m1,
  space_context_create stack dispatch pid entry aff usp a1 a2 m = (sp, m1) ->
  sp = stack + 8112 /\
  m1 sp = 0 /\ m1 (sp + 4) = 0 /\ m1 (sp + 8) = 0 /\ m1 (sp + 16) = 0 /\ m1 (sp + 20) = 0 /\ m1 (sp + 24) = 0 /\
  m1 (sp + 28) = 0 /\ m1 (sp + 32) = dispatch /\ m1 (sp + 36) = 8 /\ m1 (sp + 40) = IF /\
  m1 (sp + 48) = pid /\ m1 (sp + 52) = entry /\ m1 (sp + 56) = usp /\ m1 (sp + 64) = sp /\
  m1 (sp + 68) = a1 /\ m1 (sp + 72) = a2.
Proof.
  intros stack dispatch pid entry aff usp a1 a2 m sp m1 H. pose proof (f_equal fst H) as Hs. pose proof (f_equal snd H) as Hm.
  clear H. unfold space_context_create in Hs, Hm. cbv zeta in Hs, Hm. cbn [fst] in Hs. cbn [snd] in Hm.
  split; [unfold KSTACK in Hs; lia|]. rewrite Hs in Hm. clear Hs. set (l := [_; _; _; _; _; _; _; _; _; _; _; _; _; _; _; _; _; _; _]) in Hm.
  assert (W : forall k, (k < 19)%nat -> m1 (sp + 4 * Z.of_nat k) = nth k l 0) by (intros k Hk; rewrite <- Hm; now apply write_at).
  pose proof (W 0%nat ltac:(lia)) as W0. change (4 * Z.of_nat 0) with 0 in W0. rewrite Z.add_0_r in W0. cbn [nth l] in W0.
  split; [exact W0|].
  pose proof (W 1%nat ltac:(lia)). pose proof (W 2%nat ltac:(lia)). pose proof (W 4%nat ltac:(lia)).
  pose proof (W 5%nat ltac:(lia)). pose proof (W 6%nat ltac:(lia)). pose proof (W 7%nat ltac:(lia)).
  pose proof (W 8%nat ltac:(lia)). pose proof (W 9%nat ltac:(lia)). pose proof (W 10%nat ltac:(lia)).
  pose proof (W 12%nat ltac:(lia)). pose proof (W 13%nat ltac:(lia)). pose proof (W 14%nat ltac:(lia)).
  pose proof (W 16%nat ltac:(lia)). pose proof (W 17%nat ltac:(lia)). pose proof (W 18%nat ltac:(lia)).
  repeat split; assumption.
Qed.

Lemma load_part : forall t i b, 1 <= i -> t i = Some (b, 3) -> load t (i * 8 + 3) = Some (mkS (i * 8 + 3) b 3).
Proof.
  intros t i b Hi H. unfold load. destruct (Z.ltb_spec (i * 8 + 3) 4) as [X|_]; [lia|].
  replace ((i * 8 + 3) / 4) with (i * 2) by lia. rewrite Z_mod_mult. cbn [Z.eqb].
  replace ((i * 8 + 3) / 8) with i by lia. now rewrite H.
Qed.

Lemma exec_cons : forall i r c c', exec i c = Some c' -> exec_all (i :: r) c = exec_all r c'.
Proof. intros i r c c' H. cbn [exec_all]. now rewrite H. Qed.
Lemma dispatch_ok : forall np frame c sp pid entry usp a1 a2 b, 1 <= np -> 0 <= pid < 256 ->
  esp c = sp + 44 -> cs c = mkS 8 0 0 ->
  mem c (sp + 48) = pid -> mem c (sp + 52) = entry -> mem c (sp + 56) = usp -> mem c (sp + 64) = sp ->
  mem c (sp + 68) = a1 -> mem c (sp + 72) = a2 ->
  gdt c (3 + np + 2 * pid) = Some (b, 3) -> gdt c (4 + np + 2 * pid) = Some (b, 3) ->
  dispatch_space np frame c = Some (mkCpu (mkGp a1 0 0 a2 0 0 0) usp entry IF
    (mkS ((3 + np + 2 * pid) * 8 + 3) b 3) (mkS ((4 + np + 2 * pid) * 8 + 3) b 3)
    (mkS ((4 + np + 2 * pid) * 8 + 3) b 3) (mkS ((4 + np + 2 * pid) * 8 + 3) b 3)
    (strip 3 (fs c)) (strip 3 (gs c)) (fpu c)
    (write_words (mem c) frame [data_sel np pid; data_sel np pid; 0; 0; 0; frame + 40; a2; 0; 0; a1;
      0; entry; code_sel np pid; IF; usp; data_sel np pid]) sp (gdt c)).
Proof.
  intros np frame c sp pid entry usp a1 a2 b Hn Hp HE HC M48 M52 M56 M64 M68 M72 G1 G2.
  unfold dispatch_space, top. rewrite HE.
  replace (sp + 44 + 4) with (sp + 48) by lia. replace (sp + 44 + 8) with (sp + 52) by lia.
  replace (sp + 44 + 12) with (sp + 56) by lia. replace (sp + 44 + 20) with (sp + 64) by lia.
  replace (sp + 44 + 24) with (sp + 68) by lia. replace (sp + 44 + 28) with (sp + 72) by lia.
  rewrite M48, M52, M56, M64, M68, M72. rewrite (Z.mod_small pid 256) by lia.
  set (D := data_sel np pid). set (K := code_sel np pid).
  set (l := [D; D; 0; 0; 0; frame + 40; a2; 0; 0; a1; 0; entry; K; IF; usp; D]).
  set (m := write_words (mem c) frame l).
  assert (W : forall k, (k < 16)%nat -> m (frame + 4 * Z.of_nat k) = nth k l 0) by (intros k Hk; now apply write_at).
  pose proof (W 0%nat ltac:(lia)) as W0. change (4 * Z.of_nat 0) with 0 in W0. cbn [nth l] in W0.
  pose proof (W 1%nat ltac:(lia)) as W1. change (4 * Z.of_nat 1) with 4 in W1. cbn [nth l] in W1.
  pose proof (W 2%nat ltac:(lia)) as W2. change (4 * Z.of_nat 2) with 8 in W2. cbn [nth l] in W2.
  pose proof (W 3%nat ltac:(lia)) as W3. change (4 * Z.of_nat 3) with 12 in W3. cbn [nth l] in W3.
  pose proof (W 4%nat ltac:(lia)) as W4. change (4 * Z.of_nat 4) with 16 in W4. cbn [nth l] in W4.
  pose proof (W 6%nat ltac:(lia)) as W6. change (4 * Z.of_nat 6) with 24 in W6. cbn [nth l] in W6.
  pose proof (W 7%nat ltac:(lia)) as W7. change (4 * Z.of_nat 7) with 28 in W7. cbn [nth l] in W7.
  pose proof (W 8%nat ltac:(lia)) as W8. change (4 * Z.of_nat 8) with 32 in W8. cbn [nth l] in W8.
  pose proof (W 9%nat ltac:(lia)) as W9. change (4 * Z.of_nat 9) with 36 in W9. cbn [nth l] in W9.
  pose proof (W 11%nat ltac:(lia)) as W11. change (4 * Z.of_nat 11) with 44 in W11. cbn [nth l] in W11.
  pose proof (W 12%nat ltac:(lia)) as W12. change (4 * Z.of_nat 12) with 48 in W12. cbn [nth l] in W12.
  pose proof (W 13%nat ltac:(lia)) as W13. change (4 * Z.of_nat 13) with 52 in W13. cbn [nth l] in W13.
  pose proof (W 14%nat ltac:(lia)) as W14. change (4 * Z.of_nat 14) with 56 in W14. cbn [nth l] in W14.
  pose proof (W 15%nat ltac:(lia)) as W15. change (4 * Z.of_nat 15) with 60 in W15. cbn [nth l] in W15.
  clearbody m. clear W.
  assert (LD : load (gdt c) D = Some (mkS ((4 + np + 2 * pid) * 8 + 3) b 3)).
  { unfold D, data_sel. replace (3 + np + 2 * pid + 1) with (4 + np + 2 * pid) by lia. apply load_part; [lia|exact G2]. }
  assert (LK : load (gdt c) K = Some (mkS ((3 + np + 2 * pid) * 8 + 3) b 3)).
  { unfold K, code_sel. apply load_part; [lia|exact G1]. }
  assert (DS : D = (4 + np + 2 * pid) * 8 + 3) by (unfold D, data_sel; lia).
  assert (KS : K = (3 + np + 2 * pid) * 8 + 3) by reflexivity.
  clearbody D K. clear l. destruct c as [g e i f ccs css cds ces cfs cgs cfp cm ce0 cg].
  cbn [gp esp eip efl cs ss ds es fs gs fpu mem esp0 gdt] in *. subst ccs.
  change (set_esp _ _) with (mkCpu g frame i (if_off f) (mkS 8 0 0) css cds ces cfs cgs cfp m sp cg).
  rewrite (exec_cons PopEs _ _ (mkCpu g (frame + 4) i (if_off f) (mkS 8 0 0) css cds
    (mkS ((4 + np + 2 * pid) * 8 + 3) b 3) cfs cgs cfp m sp cg)).
  2: { cbn [exec]. unfold top. cbn [mem esp gdt]. rewrite W0, LD. reflexivity. }
  rewrite (exec_cons PopDs _ _ (mkCpu g (frame + 4 + 4) i (if_off f) (mkS 8 0 0) css (mkS ((4 + np + 2 * pid) * 8 + 3) b 3)
    (mkS ((4 + np + 2 * pid) * 8 + 3) b 3) cfs cgs cfp m sp cg)).
  2: { cbn [exec]. unfold top. cbn [mem esp gdt]. rewrite Z.add_0_r, W1, LD. reflexivity. }
  rewrite (exec_cons Popa _ _ (mkCpu (mkGp a1 0 0 a2 0 0 0) (frame + 4 + 4 + 32) i (if_off f) (mkS 8 0 0) css (mkS ((4 + np + 2 * pid) * 8 + 3) b 3)
    (mkS ((4 + np + 2 * pid) * 8 + 3) b 3) cfs cgs cfp m sp cg)).
  2: { cbn [exec]. unfold top. cbn [mem esp gdt].
  replace (frame + 4 + 4 + 0) with (frame + 8) by lia. replace (frame + 4 + 4 + 4) with (frame + 12) by lia.
  replace (frame + 4 + 4 + 8) with (frame + 16) by lia. replace (frame + 4 + 4 + 16) with (frame + 24) by lia.
  replace (frame + 4 + 4 + 20) with (frame + 28) by lia. replace (frame + 4 + 4 + 24) with (frame + 32) by lia.
  replace (frame + 4 + 4 + 28) with (frame + 36) by lia.
  rewrite W2, W3, W4, W6, W7, W8, W9. reflexivity. }
  rewrite (exec_cons (AddEsp 4) _ _ (mkCpu (mkGp a1 0 0 a2 0 0 0) (frame + 44) i (if_off f) (mkS 8 0 0) css (mkS ((4 + np + 2 * pid) * 8 + 3) b 3)
    (mkS ((4 + np + 2 * pid) * 8 + 3) b 3) cfs cgs cfp m sp cg)).
  2: { replace (frame + 44) with (frame + 4 + 4 + 32 + 4) by lia. reflexivity. }
  cbn [exec_all exec]. unfold iret, top, cpl.
  cbn [gp esp eip efl cs ss ds es fs gs fpu mem esp0 gdt sel].
  replace (frame + 44 + 4) with (frame + 48) by lia. replace (frame + 44 + 8) with (frame + 52) by lia.
  replace (frame + 44 + 12) with (frame + 56) by lia. replace (frame + 44 + 16) with (frame + 60) by lia.
  replace (frame + 44 + 0) with (frame + 44) by lia.
  rewrite W11, W12, W13, W14, W15, LK, LD. cbn [dpl].
  assert (KM : K mod 4 = 3) by (rewrite KS; clear; lia). rewrite KM. change (8 mod 4) with 0.
  change (3 <? 0) with false. change (3 =? 3) with true. change (3 =? 0) with false. cbn [negb].
  destruct (Z.ltb_spec K 4) as [X|_]; [exfalso; clear - X KS Hn Hp; lia|].
  destruct (Z.ltb_spec D 4) as [X|_]; [exfalso; clear - X DS Hn Hp; lia|]. cbn [orb].
  unfold strip at 1 2. cbn [dpl]. change (3 <? 3) with false. cbv iota. reflexivity.
Qed.
