(** Proofs about the exception code of the PowerPC port. *)
From Verif Require Import Model.Base Spec.PpcCpu Model.PpcEntry Proof.Tac.

Local Arguments upd {A} f i v !j /.
(** ** Lists of instructions *)
Definition plain (i : instr) : bool := match i with SkipEq _ => false | _ => true end.
Lemma run_app : forall l1 l2 c, forallb plain l1 = true ->
  run (l1 ++ l2) c = match run l1 c with None => None | Some c' => run l2 c' end.
Proof.
  induction l1 as [|i l1 IH]; intros l2 c H; [reflexivity|]. cbn [forallb] in H. apply andb_prop in H. destruct H as [Hi H].
  unfold run in *. cbn [app run_skip]. destruct (exec i c) as [c'|]; [|reflexivity]. destruct i; try discriminate; exact (IH l2 c' H).
Qed.

(** Symbolic execution. *)
Lemma run_cons : forall i l c c', exec i c = Some c' -> plain i = true -> run (i :: l) c = run l c'.
Proof. intros i l c c' H P. unfold run. cbn [run_skip]. rewrite H. destruct i; try discriminate; reflexivity. Qed.
Lemma run_none : forall i l c, exec i c = None -> run (i :: l) c = None.
Proof. intros i l c H. unfold run. cbn [run_skip]. rewrite H. reflexivity. Qed.
Ltac step := match goal with |- context [run (?i :: ?l) ?c] =>
  let e0 := eval cbn -[Z.add Z.land cr0 eq_bit] in (exec i c) in
  let e := eval cbv beta iota delta [set_gpr set_spr set_pc set_word gpr spr pc mem] in e0 in
  match e with Some ?c' => rewrite (run_cons i l c c' eq_refl eq_refl) end end.
Ltac go l := let l' := eval cbv in l in change l with l'; repeat step; change (run []) with (@Some ppc);
  eexists; split; [reflexivity|]; cbn [gpr spr pc mem].

Ltac eqbs := unfold upd, CR, MSR, SPRG1, SPRG2, SPRG3 in *;
  repeat match goal with |- context [?r =? ?k] => destruct (Z.eqb_spec r k); [lia|] end; reflexivity.

(** ** Stores relative to a base *)
Definition stores (m : Z -> Z) (b : Z) (l : list (Z * Z)) : Z -> Z := fold_left (fun m x => upd m (b + fst x) (snd x)) l m.
Definition found (k : Z) (l : list (Z * Z)) (v : Z) : Z := fold_left (fun acc x => if k =? fst x then snd x else acc) l v.
Lemma stores_at : forall l m b k, stores m b l (b + k) = found k l (m (b + k)).
Proof.
  induction l as [|[o v] l IH]; intros m b k; [reflexivity|]. cbn [stores found fold_left fst snd]. unfold stores, found in IH. rewrite IH.
  f_equal. unfold upd. destruct (Z.eqb_spec (b + k) (b + o)); destruct (Z.eqb_spec k o); try reflexivity; lia.
Qed.
Lemma stores_out : forall l m b a, (forall x, In x l -> a <> b + fst x) -> stores m b l a = m a.
Proof.
  induction l as [|[o v] l IH]; intros m b a H; [reflexivity|]. cbn [stores fold_left fst snd]. unfold stores in IH. rewrite IH.
  - unfold upd. destruct (Z.eqb_spec a (b + o)); [|reflexivity]. exfalso. exact (H (o, v) (or_introl eq_refl) e).
  - intros x Hx. apply H. now right.
Qed.

(** ** Bits *)
Lemma land_pr : forall x, Z.land x PR = if Z.testbit x 14 then PR else 0.
Proof.
  intros x. apply Z.bits_inj'. intros n Hn. rewrite Z.land_spec. unfold PR. rewrite Z.pow2_bits_eqb by lia.
  destruct (Z.eqb_spec 14 n) as [<- | N].
  - rewrite andb_true_r. destruct (Z.testbit x 14); [rewrite Z.pow2_bits_eqb by lia; reflexivity|now rewrite Z.bits_0].
  - rewrite andb_false_r. destruct (Z.testbit x 14); [rewrite Z.pow2_bits_eqb by lia; now destruct (Z.eqb_spec 14 n)|now rewrite Z.bits_0].
Qed.
Lemma cr0_eq : forall c v, 0 <= v < 2 ^ 16 -> Z.testbit (cr0 c v) 29 = (v =? 0).
Proof.
  intros c v Hv. unfold cr0. set (x := spr c CR mod 2 ^ 28). assert (Hx : 0 <= x < 2 ^ 28) by (apply Z.mod_pos_bound; lia). clearbody x.
  set (k := if Z.testbit (spr c XER) 31 then 2 ^ 28 else 0). assert (Hk : 0 <= k <= 2 ^ 28) by (unfold k; destruct (Z.testbit _ _); lia). clearbody k.
  rewrite Z.testbit_odd, Z.shiftr_div_pow2 by lia.
  assert (V : Z.testbit v 31 = false).
  { rewrite Z.testbit_odd, Z.shiftr_div_pow2 by lia. rewrite Z.div_small by lia. reflexivity. }
  rewrite V. clear V. destruct (Z.eqb_spec v 0).
  - rewrite <- (Z.div_unique (x + 2 ^ 29 + k) (2 ^ 29) 1 (x + k)); [reflexivity|left; lia|lia].
  - rewrite <- (Z.div_unique (x + 2 ^ 30 + k) (2 ^ 29) 2 (x + k)); [reflexivity|left; lia|lia].
Qed.
Lemma pr_zero : forall x, (Z.land x PR =? 0) = negb (Z.testbit x 14).
Proof. intros x. rewrite land_pr. destruct (Z.testbit x 14); reflexivity. Qed.
Lemma pr_range : forall x, 0 <= Z.land x PR < 2 ^ 16.
Proof. intros x. rewrite land_pr. unfold PR. destruct (Z.testbit x 14); lia. Qed.

Ltac reg_cases r H := assert (r = 0 \/ r = 1 \/ r = 2 \/ r = 3 \/ r = 4 \/ r = 5 \/ r = 6 \/ r = 7 \/ r = 8 \/ r = 9 \/ r = 10 \/ r = 11 \/ r = 12 \/ r = 13 \/
  r = 14 \/ r = 15 \/ r = 16 \/ r = 17 \/ r = 18 \/ r = 19 \/ r = 20 \/ r = 21 \/ r = 22 \/ r = 23 \/ r = 24 \/ r = 25 \/ r = 26 \/ r = 27 \/ r = 28 \/ r = 29 \/ r = 30 \/ r = 31)
  as H by (clear - H; lia).

(** ** The beginning of the handlers *)
Lemma prologue_ok : forall c, exists c1, run prologue c = Some c1 /\ eq_bit c1 = negb (Z.testbit (spr c SRR1) 14) /\
  gpr c1 3 = spr c CR /\ (forall r, r <> 3 -> r <> 4 -> gpr c1 r = gpr c r) /\ spr c1 SPRG3 = gpr c 3 /\ spr c1 SPRG2 = gpr c 4 /\
  (forall q, q <> CR -> q <> SPRG2 -> q <> SPRG3 -> spr c1 q = spr c q) /\ mem c1 = mem c /\ pc c1 = pc c.
Proof.
  intros [g s p m]. go prologue. split.
  - unfold eq_bit, set_spr, set_gpr. cbn [spr gpr pc mem]. unfold upd at 1. rewrite Z.eqb_refl. rewrite cr0_eq by apply pr_range.
    rewrite pr_zero. reflexivity.
  - unfold set_spr, set_gpr. cbn [spr gpr pc mem]. split; [reflexivity|]. split.
    + intros r H3 H4. unfold upd. destruct (Z.eqb_spec r 4); [contradiction|]. destruct (Z.eqb_spec r 3); [contradiction|reflexivity].
    + split; [reflexivity|]. split; [reflexivity|]. split; [|split; reflexivity]. intros q H1 H2 H3. eqbs.
Qed.

(** What SAVE_REGS puts into the frame at [b]. *)
Definition saved (c : ppc) : list (Z * Z) :=
  [(84, spr c LR); (64, spr c CTR); (68, spr c XER); (8, gpr c 3); (12, gpr c 0); (16, gpr c 2); (20, spr c SPRG3); (24, spr c SPRG2);
   (28, gpr c 5); (32, gpr c 6); (36, gpr c 7); (40, gpr c 8); (44, gpr c 9); (48, gpr c 10); (52, gpr c 11); (56, gpr c 12); (60, gpr c 13);
   (72, spr c SRR0); (76, spr c SRR1)].
Lemma save_ok : forall c, exists c1, run save_regs c = Some c1 /\ mem c1 = stores (mem c) (gpr c 1) (saved c) /\
  gpr c1 0 = spr c SPRG2 /\ gpr c1 3 = spr c SRR0 /\ gpr c1 4 = spr c SRR1 /\ (forall r, r <> 0 -> r <> 3 -> r <> 4 -> gpr c1 r = gpr c r) /\
  spr c1 = spr c /\ pc c1 = pc c.
Proof.
  intros [g s p m]. go save_regs. split; [reflexivity|]. split; [reflexivity|]. split; [reflexivity|]. split; [reflexivity|].
  split; [|split; reflexivity]. intros r H0 H3 H4. eqbs.
Qed.

(** The frame at [b] holds the registers of the interrupted program [c], and where and in which mode it goes on. *)
Definition framed (b : Z) (c : ppc) (resume mode : Z) (m : Z -> Z) : Prop :=
  m b = gpr c 1 /\ m (b + 8) = spr c CR /\ m (b + 12) = gpr c 0 /\ m (b + 16) = gpr c 2 /\
  m (b + 20) = gpr c 3 /\ m (b + 24) = gpr c 4 /\ m (b + 28) = gpr c 5 /\ m (b + 32) = gpr c 6 /\ m (b + 36) = gpr c 7 /\ m (b + 40) = gpr c 8 /\
  m (b + 44) = gpr c 9 /\ m (b + 48) = gpr c 10 /\ m (b + 52) = gpr c 11 /\ m (b + 56) = gpr c 12 /\ m (b + 60) = gpr c 13 /\
  m (b + 64) = spr c CTR /\ m (b + 68) = spr c XER /\ m (b + 72) = resume /\ m (b + 76) = mode /\ m (b + 84) = spr c LR.

Lemma enter_frame : forall c1 c resume mode, let b := gpr c1 1 in
  mem c1 b = gpr c 1 -> gpr c1 3 = spr c CR -> (forall r, r <> 1 -> r <> 3 -> r <> 4 -> gpr c1 r = gpr c r) -> spr c1 SPRG3 = gpr c 3 -> spr c1 SPRG2 = gpr c 4 ->
  spr c1 LR = spr c LR -> spr c1 CTR = spr c CTR -> spr c1 XER = spr c XER -> spr c1 SRR0 = resume -> spr c1 SRR1 = mode ->
  exists c2, run save_regs c1 = Some c2 /\ framed b c resume mode (mem c2) /\ gpr c2 1 = b /\ gpr c2 3 = resume /\ gpr c2 4 = mode /\
    (forall r, r <> 0 -> r <> 1 -> r <> 3 -> r <> 4 -> gpr c2 r = gpr c r) /\ spr c2 = spr c1 /\ same_but b 88 (mem c1) (mem c2) /\
    mem c2 (b + 4) = mem c1 (b + 4) /\ mem c2 (b + 80) = mem c1 (b + 80).
Proof.
  intros c1 c resume mode b H1 H3 HG S3 S2 SL SC SX S0 SM. destruct (save_ok c1) as (c2 & R & M & _ & G3 & G4 & GO & SP & _). fold b in M.
  exists c2. split; [exact R|]. split.
  - assert (M0 : mem c2 b = gpr c 1).
    { rewrite M. pose proof (stores_at (saved c1) (mem c1) b 0) as E. rewrite Z.add_0_r in E. rewrite E. exact H1. }
    unfold framed. rewrite M0. rewrite M. rewrite !stores_at. unfold saved, found. cbn [fold_left fst snd Z.eqb Pos.eqb].
    rewrite H3. rewrite !HG by lia. repeat split; assumption.
  - rewrite GO by lia. split; [reflexivity|]. rewrite G3, G4. split; [exact S0|]. split; [exact SM|].
    split; [intros r A B C D; rewrite GO by assumption; now apply HG|]. split; [exact SP|]. rewrite M. split.
    + intros a Ha. apply stores_out. intros x Hx. unfold saved in Hx. cbn [In] in Hx.
      repeat (destruct Hx as [<- | Hx]; [cbn [fst]; lia|]). contradiction.
    + rewrite !stores_at. split; reflexivity.
Qed.

(** ** The return *)
Definition rfi1 : list instr := firstn 22 arch_rfi.
Definition rfi2 : list instr := [Lwz 0 8 1; Mt CR 0; Lwz 0 12 1; Lwz 1 0 1].
Lemma rfi1_ok : forall c, let b := gpr c 1 in let m := mem c in exists c1, run rfi1 c = Some c1 /\ gpr c1 0 = m (b + 76) /\ gpr c1 1 = b /\
  gpr c1 2 = m (b + 16) /\ gpr c1 3 = m (b + 20) /\ gpr c1 4 = m (b + 24) /\ gpr c1 5 = m (b + 28) /\ gpr c1 6 = m (b + 32) /\ gpr c1 7 = m (b + 36) /\
  gpr c1 8 = m (b + 40) /\ gpr c1 9 = m (b + 44) /\ gpr c1 10 = m (b + 48) /\ gpr c1 11 = m (b + 52) /\ gpr c1 12 = m (b + 56) /\ gpr c1 13 = m (b + 60) /\
  (forall r, 14 <= r -> gpr c1 r = gpr c r) /\ spr c1 LR = m (b + 84) /\ spr c1 CTR = m (b + 64) /\ spr c1 XER = m (b + 68) /\
  spr c1 SRR0 = m (b + 72) /\ spr c1 SRR1 = m (b + 76) /\ spr c1 SPRG1 = spr c SPRG1 /\ spr c1 MSR = spr c MSR /\ mem c1 = m /\ pc c1 = pc c.
Proof.
  intros [g s p m]. go rfi1. do 14 (split; [reflexivity|]). split.
  - intros r H. eqbs.
  - do 8 (split; [reflexivity|]). reflexivity.
Qed.
Lemma rfi2_ok : forall c, let b := gpr c 1 in exists c1, run rfi2 c = Some c1 /\ gpr c1 0 = mem c (b + 12) /\ gpr c1 1 = mem c (b + 0) /\
  (forall r, 2 <= r -> gpr c1 r = gpr c r) /\ spr c1 CR = mem c (b + 8) /\
  (forall q, q <> CR -> spr c1 q = spr c q) /\ mem c1 = mem c /\ pc c1 = pc c.
Proof.
  intros [g s p m]. go rfi2. do 2 (split; [reflexivity|]). split.
  - intros r H. eqbs.
  - split; [reflexivity|]. split; [|split; reflexivity]. intros q H1. eqbs.
Qed.
(** pok_arch_rfi without its last instruction. *)
Definition before_rfi : list instr := firstn 30 arch_rfi.
Lemma rfi_split : forall l c, run (before_rfi ++ l) c = match run rfi1 c with
  | None => None
  | Some c1 => let v := Z.land (gpr c1 0) PR in let c2 := set_spr CR (cr0 c1 v) (set_gpr 0 v c1) in
      if Z.testbit (gpr c1 0) 14 then run (rfi2 ++ l) (set_spr SPRG1 (gpr c2 1) (set_gpr 0 (gpr c2 1 + FRAME_SIZE) c2)) else run (rfi2 ++ l) c2
  end.
Proof.
  intros l c. change (before_rfi ++ l) with (rfi1 ++ [Andi 0 0 PR; SkipEq 2; Addi 0 1 FRAME_SIZE; Mt SPRG1 1] ++ rfi2 ++ l). rewrite run_app by reflexivity.
  destruct (run rfi1 c) as [c1|]; [|reflexivity]. cbv zeta. unfold run at 1. cbn [app run_skip exec].
  set (c2 := set_spr CR (cr0 c1 (Z.land (gpr c1 0) PR)) (set_gpr 0 (Z.land (gpr c1 0) PR) c1)).
  assert (E : eq_bit c2 = negb (Z.testbit (gpr c1 0) 14)).
  { unfold eq_bit, c2, set_spr. cbn [spr]. rewrite upd_same. rewrite cr0_eq by apply pr_range. apply pr_zero. }
  rewrite E. destruct (Z.testbit (gpr c1 0) 14); reflexivity.
Qed.

(** All registers of the program are loaded, and where it goes on. *)
Definition loaded (c0 c : ppc) (resume mode : Z) : Prop :=
  (forall r, 0 <= r < 32 -> gpr c r = gpr c0 r) /\ spr c LR = spr c0 LR /\ spr c CTR = spr c0 CTR /\ spr c XER = spr c0 XER /\ spr c CR = spr c0 CR /\
  spr c SRR0 = resume /\ spr c SRR1 = mode.
Lemma exit_ok : forall c c0 resume mode l, let b := gpr c 1 in framed b c0 resume mode (mem c) -> (forall r, 14 <= r < 32 -> gpr c r = gpr c0 r) ->
  exists c', run (before_rfi ++ l) c = run l c' /\ loaded c0 c' resume mode /\ mem c' = mem c /\ spr c' MSR = spr c MSR /\ pc c' = pc c /\
    spr c' SPRG1 = (if Z.testbit mode 14 then b else spr c SPRG1).
Proof.
  intros c c0 resume mode l b F G14. rewrite rfi_split.
  destruct (rfi1_ok c) as (c1 & R1 & A0 & A1 & A2 & A3 & A4 & A5 & A6 & A7 & A8 & A9 & A10 & A11 & A12 & A13 & A14 & L & C & X & S0 & S1 & SG & SM & M1 & PC1).
  rewrite R1. cbv zeta. fold b in A0, A1, A2, A3, A4, A5, A6, A7, A8, A9, A10, A11, A12, A13, L, C, X, S0, S1.
  destruct F as (F1 & FC & F0 & F2 & F3 & F4 & F5 & F6 & F7 & F8 & F9 & F10 & F11 & F12 & F13 & FT & FX & FR & FM & FL).
  set (c2 := set_spr CR _ (set_gpr 0 _ c1)).
  assert (K : forall c3, gpr c3 1 = b -> mem c3 = mem c -> pc c3 = pc c1 -> (forall r, 2 <= r -> gpr c3 r = gpr c1 r) -> (forall q, q <> CR -> q <> SPRG1 -> spr c3 q = spr c1 q) ->
     spr c3 SPRG1 = (if Z.testbit mode 14 then b else spr c SPRG1) ->
     exists c', run (rfi2 ++ l) c3 = run l c' /\ loaded c0 c' resume mode /\ mem c' = mem c /\ spr c' MSR = spr c MSR /\ pc c' = pc c /\
       spr c' SPRG1 = (if Z.testbit mode 14 then b else spr c SPRG1)).
  { intros c3 B1 M3 P0 G3 P3 S3. destruct (rfi2_ok c3) as (c' & R & D0 & D1 & DR & DC & DS & DMem & DPc). rewrite B1, M3 in *.
    exists c'. split; [rewrite run_app by reflexivity; now rewrite R|].
    split; [|split; [exact DMem|split; [rewrite DS, P3 by discriminate; exact SM|split; [congruence|rewrite DS by discriminate; exact S3]]]].
    unfold loaded. rewrite DC, !DS, !P3 by discriminate. rewrite S0, S1, L, C, X. rewrite FR, FM, FL, FT, FX, FC. repeat split; try assumption.
    intros r Hr. assert (r = 0 \/ r = 1 \/ 2 <= r) as [-> | [-> | Hr2]] by lia.
    - now rewrite D0.
    - now rewrite D1, Z.add_0_r.
    - rewrite DR, G3 by assumption. destruct (Z_le_gt_dec 14 r); [rewrite A14 by lia; apply G14; lia|].
      assert (r = 2 \/ r = 3 \/ r = 4 \/ r = 5 \/ r = 6 \/ r = 7 \/ r = 8 \/ r = 9 \/ r = 10 \/ r = 11 \/ r = 12 \/ r = 13) as E by lia.
      repeat (destruct E as [-> | E]; [congruence|]). subst r. congruence. }
  rewrite A0, FM. destruct (Z.testbit mode 14) eqn:T.
  - apply K; unfold c2, set_spr, set_gpr; cbn [gpr spr mem pc]; unfold upd; cbn [Z.eqb].
    + exact A1.
    + exact M1.
    + reflexivity.
    + intros r Hr. destruct (Z.eqb_spec r 0); [lia|reflexivity].
    + intros q Q1 Q2. destruct (Z.eqb_spec q SPRG1); [contradiction|]. destruct (Z.eqb_spec q CR); [contradiction|reflexivity].
    + exact A1.
  - apply K; unfold c2, set_spr, set_gpr; cbn [gpr spr mem pc]; unfold upd; cbn [Z.eqb].
    + exact A1.
    + exact M1.
    + reflexivity.
    + intros r Hr. destruct (Z.eqb_spec r 0); [lia|reflexivity].
    + intros q Q1 Q2. destruct (Z.eqb_spec q CR); [contradiction|reflexivity].
    + exact SG.
Qed.

Lemma rfi_ok : forall c c0 resume mode, let b := gpr c 1 in framed b c0 resume mode (mem c) -> (forall r, 14 <= r < 32 -> gpr c r = gpr c0 r) ->
  Z.land mode MSR_SAVED = spr c0 MSR ->
  exists c', run arch_rfi c = Some c' /\ resumed resume c0 c' /\ mem c' = mem c /\ spr c' SRR0 = resume /\ spr c' SRR1 = mode /\
    spr c' SPRG1 = (if Z.testbit mode 14 then b else spr c SPRG1).
Proof.
  intros c c0 resume mode b F G HM. destruct (exit_ok c c0 resume mode [Rfi] F G) as (c1 & R & (LG & LL & LC & LX & LR_ & L0 & L1) & M & _ & _ & S).
  exists (set_pc (spr c1 SRR0) (set_spr MSR (Z.land (spr c1 SRR1) MSR_SAVED) c1)).
  split; [change arch_rfi with (before_rfi ++ [Rfi]); rewrite R; reflexivity|]. unfold resumed, set_pc, set_spr. cbn [pc gpr spr mem].
  rewrite L0, L1, HM. unfold upd. cbn [Z.eqb]. repeat split; try assumption.
Qed.

(** ** Whole handlers *)
(** The frame survives a C function. *)
Lemma framed_kept : forall n b c0 resume mode c c', 88 <= n -> keeps n c c' -> gpr c 1 = b -> framed b c0 resume mode (mem c) -> framed b c0 resume mode (mem c').
Proof.
  intros n b c0 resume mode c c' Hn (_ & _ & _ & _ & K) <- F. unfold framed in *. rewrite !K by lia. exact F.
Qed.

(** SRR1 after an exception. *)
Lemma mode_bits : forall m cause, Z.land m MSR_SAVED = m -> is_cause cause ->
  Z.land (Z.lor (Z.land m MSR_SAVED) cause) MSR_SAVED = m /\ Z.testbit (Z.lor (Z.land m MSR_SAVED) cause) 14 = Z.testbit m 14.
Proof.
  intros m cause Hm Hc. rewrite Hm. split.
  - rewrite Z.land_lor_distr_l, Hm, Hc. apply Z.lor_0_r.
  - rewrite Z.lor_spec. assert (E : Z.testbit (Z.land cause MSR_SAVED) 14 = false) by (rewrite Hc; reflexivity).
    rewrite Z.land_spec in E. replace (Z.testbit MSR_SAVED 14) with true in E by reflexivity. rewrite andb_true_r in E. rewrite E. apply orb_false_r.
Qed.

(** From user mode to the C function: what it sees. *)
Lemma user_entry : forall c resume cause, user c = true -> Z.land (spr c MSR) MSR_SAVED = spr c MSR -> is_cause cause ->
  let b := spr c SPRG1 - FRAME_SIZE in let mode := Z.lor (Z.land (spr c MSR) MSR_SAVED) cause in
  exists c2, (forall l, run (prologue ++ from_user ++ save_regs ++ l) (exception resume cause c) = run l c2) /\ framed b c resume mode (mem c2) /\ gpr c2 1 = b /\
    gpr c2 3 = resume /\ gpr c2 4 = mode /\ (forall r, r <> 0 -> r <> 1 -> r <> 3 -> r <> 4 -> gpr c2 r = gpr c r) /\
    same_but b 88 (mem c) (mem c2) /\ mem c2 (b + 80) = mem c (b + 80) /\ spr c2 MSR = Z.land (spr c MSR) MSR_KEPT /\
    (forall q, q <> CR -> q <> SPRG2 -> q <> SPRG3 -> q <> SRR0 -> q <> SRR1 -> q <> MSR -> spr c2 q = spr c q).
Proof.
  intros c resume cause U HM HC b mode. destruct (mode_bits _ _ HM HC) as (_ & B14). fold mode in B14. unfold user in U. rewrite U in B14.
  destruct (prologue_ok (exception resume cause c)) as (c1 & R1 & E1 & G3 & GO & S3 & S2 & SO & M1 & _).
  assert (X : spr (exception resume cause c) SRR1 = mode) by reflexivity. rewrite X, B14 in E1. cbn [negb] in E1.
  assert (R2 : run from_user c1 = Some {| gpr := upd (upd (upd (gpr c1) 4 (gpr c1 1)) 1 (spr c1 SPRG1)) 1 (spr c1 SPRG1 + - FRAME_SIZE); spr := spr c1; pc := pc c1;
     mem := upd (mem c1) (spr c1 SPRG1 + - FRAME_SIZE) (gpr c1 1) |}).
  { unfold run, from_user. cbn [run_skip exec]. rewrite E1. reflexivity. }
  match type of R2 with _ = Some ?x => set (c2 := x) in R2 end.
  assert (SG : spr c1 SPRG1 = spr c SPRG1) by (rewrite SO by discriminate; reflexivity).
  assert (B : gpr c2 1 = b) by (unfold c2; cbn [gpr]; rewrite upd_same, SG; unfold b, FRAME_SIZE; lia).
  destruct (enter_frame c2 c resume mode) as (c3 & R3 & F & H1 & H3 & H4 & HG & HS & HB & _ & HB80).
  - rewrite B. unfold c2. cbn [mem]. rewrite SG. replace (spr c SPRG1 + - FRAME_SIZE) with b by (unfold b; lia). rewrite upd_same. now rewrite GO by lia.
  - unfold c2. cbn [gpr]. unfold upd. cbn [Z.eqb Pos.eqb]. exact G3.
  - intros r N1 N3 N4. unfold c2. cbn [gpr]. unfold upd. destruct (Z.eqb_spec r 1); [contradiction|]. destruct (Z.eqb_spec r 4); [contradiction|]. now apply GO.
  - exact S3.
  - exact S2.
  - unfold c2. cbn [spr]. rewrite SO by discriminate. reflexivity.
  - unfold c2. cbn [spr]. rewrite SO by discriminate. reflexivity.
  - unfold c2. cbn [spr]. rewrite SO by discriminate. reflexivity.
  - unfold c2. cbn [spr]. rewrite SO by discriminate. reflexivity.
  - unfold c2. cbn [spr]. rewrite SO by discriminate. reflexivity.
  - rewrite B in *. exists c3. split; [intros l; rewrite run_app by reflexivity; rewrite R1, run_app by reflexivity; rewrite R2, run_app by reflexivity; now rewrite R3|]. split; [exact F|]. split; [exact H1|]. split; [exact H3|]. split; [exact H4|].
    split; [exact HG|]. assert (MC : forall a, a <> b -> mem c2 a = mem c a).
    { intros a Ha. unfold c2. cbn [mem]. rewrite SG. replace (spr c SPRG1 + - FRAME_SIZE) with b by (unfold b; lia). rewrite upd_other by assumption. now rewrite M1. }
    split; [intros a Ha; rewrite HB by exact Ha; apply MC; lia|]. split; [rewrite HB80; apply MC; lia|]. rewrite HS. unfold c2. cbn [spr].
    split; [rewrite SO by discriminate; reflexivity|]. intros q Q1 Q2 Q3 Q4 Q5 Q6. rewrite SO by assumption. unfold exception. cbn [spr].
    rewrite !upd_other by assumption. reflexivity.
Qed.
Lemma kernel_entry : forall c resume cause, user c = false -> Z.land (spr c MSR) MSR_SAVED = spr c MSR -> is_cause cause ->
  let b := gpr c 1 - FRAME_SIZE in let mode := Z.lor (Z.land (spr c MSR) MSR_SAVED) cause in
  exists c2, (forall l, run (prologue ++ [FailNe; Stwu 1 (- FRAME_SIZE) 1] ++ save_regs ++ l) (exception resume cause c) = run l c2) /\ framed b c resume mode (mem c2) /\ gpr c2 1 = b /\
    gpr c2 3 = resume /\ gpr c2 4 = mode /\ (forall r, r <> 0 -> r <> 1 -> r <> 3 -> r <> 4 -> gpr c2 r = gpr c r) /\
    same_but b 88 (mem c) (mem c2) /\ mem c2 (b + 80) = mem c (b + 80) /\ spr c2 MSR = Z.land (spr c MSR) MSR_KEPT /\ spr c2 SPRG1 = spr c SPRG1.
Proof.
  intros c resume cause U HM HC b mode. destruct (mode_bits _ _ HM HC) as (_ & B14). fold mode in B14. unfold user in U. rewrite U in B14.
  destruct (prologue_ok (exception resume cause c)) as (c1 & R1 & E1 & G3 & GO & S3 & S2 & SO & M1 & _).
  assert (X : spr (exception resume cause c) SRR1 = mode) by reflexivity. rewrite X, B14 in E1. cbn [negb] in E1.
  assert (R2 : run [FailNe; Stwu 1 (- FRAME_SIZE) 1] c1 = Some {| gpr := upd (gpr c1) 1 (gpr c1 1 + - FRAME_SIZE); spr := spr c1; pc := pc c1;
     mem := upd (mem c1) (gpr c1 1 + - FRAME_SIZE) (gpr c1 1) |}).
  { unfold run. cbn [run_skip exec]. rewrite E1. reflexivity. }
  match type of R2 with _ = Some ?x => set (c2 := x) in R2 end.
  assert (SG : gpr c1 1 = gpr c 1) by (rewrite GO by lia; reflexivity).
  assert (B : gpr c2 1 = b) by (unfold c2; cbn [gpr]; rewrite upd_same, SG; unfold b, FRAME_SIZE; lia).
  destruct (enter_frame c2 c resume mode) as (c3 & R3 & F & H1 & H3 & H4 & HG & HS & HB & _ & HB80).
  - rewrite B. unfold c2. cbn [mem]. rewrite SG. replace (gpr c 1 + - FRAME_SIZE) with b by (unfold b; lia). apply upd_same.
  - unfold c2. cbn [gpr]. unfold upd. cbn [Z.eqb Pos.eqb]. exact G3.
  - intros r N1 N3 N4. unfold c2. cbn [gpr]. unfold upd. destruct (Z.eqb_spec r 1); [contradiction|]. now apply GO.
  - exact S3.
  - exact S2.
  - unfold c2. cbn [spr]. rewrite SO by discriminate. reflexivity.
  - unfold c2. cbn [spr]. rewrite SO by discriminate. reflexivity.
  - unfold c2. cbn [spr]. rewrite SO by discriminate. reflexivity.
  - unfold c2. cbn [spr]. rewrite SO by discriminate. reflexivity.
  - unfold c2. cbn [spr]. rewrite SO by discriminate. reflexivity.
  - rewrite B in *. exists c3. split; [intros l; rewrite run_app by reflexivity; rewrite R1, run_app by reflexivity; rewrite R2, run_app by reflexivity; now rewrite R3|]. split; [exact F|]. split; [exact H1|]. split; [exact H3|]. split; [exact H4|].
    split; [exact HG|]. assert (MC : forall a, a <> b -> mem c2 a = mem c a).
    { intros a Ha. unfold c2. cbn [mem]. rewrite SG. replace (gpr c 1 + - FRAME_SIZE) with b by (unfold b; lia). rewrite upd_other by assumption. now rewrite M1. }
    split; [intros a Ha; rewrite HB by exact Ha; apply MC; lia|]. split; [rewrite HB80; apply MC; lia|]. rewrite HS. unfold c2. cbn [spr].
    split; rewrite SO by discriminate; reflexivity.
Qed.
