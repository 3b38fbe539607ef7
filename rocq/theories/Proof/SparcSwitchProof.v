(** Threads of the SPARC port: any number of them, any number of switches. *)
From Verif Require Import Model.Base Spec.SparcCpu Spec.SparcWindows Spec.SparcThreads Model.SparcEntry Model.SparcTrap
  Proof.Tac Proof.SparcWinProof Proof.SparcProgProof Proof.SparcTrapProof Proof.SparcLeaveProof Proof.SparcThreadProof.

(** ** A program writes its own words only *)
Lemma step_frame : forall K c A i A' c', holds K c A -> p_step K A i = Some A' -> c_step c i = Some c' -> forall a, ~ own K a -> mem c' a = mem c a.
Proof.
  intros K c A i A' c' H E R a Ha. pose proof (h_win K c A H) as W. pose proof (h_shape K c A H) as Sh.
  destruct i as [d rs f|d rs f|rs f g|n|d rs f]; cbn [p_step c_step] in *.
  - injection R as <-. rewrite mem_set. reflexivity.
  - destruct (fine c 4 (f (map (reg c) rs))); [|discriminate]. injection R as <-. rewrite mem_set. reflexivity.
  - destruct (p_regs A rs) as [l|] eqn:L; [|discriminate]. destruct (usable K A (f l)) eqn:U; [|discriminate].
    rewrite (holds_regs K c A rs l H L) in R. destruct (fine c 4 (f l)); [|discriminate]. injection R as <-. cbn [mem set_mem]. unfold upd.
    destruct (Z.eqb_spec a (f l)) as [-> |]; [|reflexivity]. exfalso. apply Ha. destruct (usable_free K A (f l) Sh U) as (_ & _ & U3 & _). exact U3.
  - unfold do_save in R. destruct (Z.testbit (wim c) (below (cwp c))) eqn:T.
    + pose proof W as (Hc & Hi & Hw & Hn & HET). unfold NW in *. pose proof (below_range (cwp c)) as Br. pose proof T as T'. rewrite Hw, wim_bit in T' by assumption. apply Z.eqb_eq in T'.
      assert (R7 : resident c = 7) by (unfold resident; rewrite T'; unfold below, NW; clear - Hc; lia). pose proof (h_res K c A H) as D. rewrite R7 in D.
      assert (SP : win c ((cwp c + 5) mod 8) 30 = p_sp A 6).
      { pose proof (h_fr K c A H 5%nat 30 (p_sp A 6) ltac:(clear - D; lia) ltac:(clear; lia) (sh_fp K A Sh 5 ltac:(clear - D; lia))) as F. unfold in_frame in F. rewrite R7 in F. exact F. }
      pose proof (sp_range K A 6 Sh ltac:(clear - D; lia)) as Rg.
      destruct (overflow_ok c W T') as (c1 & E1 & _ & _ & _ & _ & _ & _ & Mout).
      { rewrite SP. apply (sh_align K A Sh). clear - D. lia. }
      { rewrite SP. intros b Hb. rewrite (h_acc K c A H b) by (clear - Rg Hb; lia). clear; lia. }
      rewrite E1 in R. destruct (Z.testbit (wim c1) (below (cwp c1))); [discriminate|]. injection R as <-. unfold shift_down. rewrite mem_set. cbn [mem set_psr].
      apply Mout. rewrite SP. intros Hb. apply Ha. left. clear - Hb Rg. lia.
    + injection R as <-. unfold shift_down. rewrite mem_set. reflexivity.
  - unfold do_restore in R. destruct (Z.testbit (wim c) (above (cwp c))) eqn:T.
    + pose proof W as (Hc & Hi & Hw & Hn & HET). unfold NW in *. pose proof (above_range (cwp c)) as Br. pose proof T as T'. rewrite Hw, wim_bit in T' by assumption. apply Z.eqb_eq in T'.
      assert (R1 : resident c = 1) by (unfold resident; rewrite T'; unfold above, NW; clear - Hc; lia).
      assert (D : (2 <= p_depth A)%nat) by (destruct (p_depth A) as [|[|e]]; try discriminate; clear; lia).
      assert (SP : win c (cwp c) 30 = p_sp A 1).
      { pose proof (h_fr K c A H 0%nat 30 (p_sp A 1) ltac:(clear - D; lia) ltac:(clear; lia) (sh_fp K A Sh 0 ltac:(clear - D; lia))) as F. unfold in_frame in F. rewrite R1 in F.
        unfold NW in F. replace ((cwp c + Z.of_nat 0) mod 8) with (cwp c) in F by (clear - Hc; lia). exact F. }
      pose proof (sp_range K A 1 Sh ltac:(clear - D; lia)) as Rg.
      destruct (underflow_ok c W T') as (c1 & E1 & _ & _ & _ & _ & _ & _ & Mout).
      { rewrite SP. apply (sh_align K A Sh). clear - D. lia. }
      { rewrite SP. intros b Hb. rewrite (h_acc K c A H b) by (clear - Rg Hb; lia). clear; lia. }
      rewrite E1 in R. destruct (Z.testbit (wim c1) (above (cwp c1))); [discriminate|]. injection R as <-. unfold shift_up. rewrite mem_set. cbn [mem set_psr].
      rewrite Mout. reflexivity.
    + injection R as <-. unfold shift_up. rewrite mem_set. reflexivity.
Qed.
Lemma step_confined : forall K c A i A', holds K c A -> p_step K A i = Some A' -> confined K A -> confined K A'.
Proof.
  intros K c A i A' H E C. pose proof (h_shape K c A H) as Sh. intros a v Ev.
  destruct i as [d rs f|d rs f|rs f g|n|d rs f]; cbn [p_step] in E.
  - destruct (value_reg d); [|discriminate]. destruct (p_regs A rs) as [l|]; [|discriminate]. injection E as <-. rewrite (proj2 (p_set_rest d _ A)) in Ev. exact (C a v Ev).
  - destruct (value_reg d); [|discriminate]. destruct (p_regs A rs) as [l|]; [|discriminate]. destruct (f l mod 4 =? 0); [|discriminate].
    destruct (p_mem A (f l)); [|discriminate]. injection E as <-. rewrite (proj2 (p_set_rest d _ A)) in Ev. exact (C a v Ev).
  - destruct (p_regs A rs) as [l|] eqn:L; [|discriminate]. destruct (usable K A (f l)) eqn:U; [|discriminate]. injection E as <-. cbn [p_mem] in Ev. unfold upd in Ev.
    destruct (Z.eqb_spec a (f l)) as [-> |]; [|exact (C a v Ev)]. destruct (usable_free K A (f l) Sh U) as (_ & _ & U3 & _). exact U3.
  - destruct ((64 <=? n) && (n mod 8 =? 0) && (lo K <=? p_sp A 0 - n)); [|discriminate]. injection E as <-. cbn [p_mem] in Ev. apply forget_none in Ev. exact (C a v (proj1 Ev)).
  - destruct (p_depth A) as [|[|e]]; try discriminate. destruct (value_reg d); [|discriminate]. destruct (p_regs A rs) as [l|]; [|discriminate].
    remember (mkProg (p_glob A) (fun r => p_fr A 0 (r + 16)) (fun k => p_fr A (S k)) (S e) (forget (p_sp A 0) (p_sp A 1) (p_mem A))) as B eqn:EB.
    assert (EA : A' = p_set d (Some (f l)) B) by (injection E as <-; rewrite EB; reflexivity). rewrite EA in Ev.
    rewrite (proj2 (p_set_rest d _ B)) in Ev. rewrite EB in Ev. cbn [p_mem] in Ev. apply forget_none in Ev. exact (C a v (proj1 Ev)).
Qed.
Lemma run_all : forall K l c A A', holds K c A -> confined K A -> p_run K A l = Some A' ->
  exists c', c_run c l = Some c' /\ holds K c' A' /\ confined K A' /\ (forall a, ~ own K a -> mem c' a = mem c a) /\ (forall a, acc c' a = acc c a).
Proof.
  intros K. induction l as [|i l IH]; intros c A A' H C E; cbn [p_run c_run] in *.
  - injection E as <-. exists c. split; [reflexivity|]. split; [exact H|]. split; [exact C|]. split; reflexivity.
  - destruct (p_step K A i) as [A1|] eqn:E1; [|discriminate]. destruct (step_sim K c A i A1 H E1) as (c1 & R1 & H1 & (_ & _ & _ & _ & Ac)).
    pose proof (step_confined K c A i A1 H E1 C) as C1. destruct (IH c1 A1 A' H1 C1 E) as (c' & R & H' & C' & F & Ac').
    exists c'. rewrite R1. split; [exact R|]. split; [exact H'|]. split; [exact C'|]. split; [|intros a; rewrite Ac'; apply Ac].
    intros a Ha. rewrite F by exact Ha. exact (step_frame K c A i A1 c1 H E1 R1 a Ha).
Qed.
Lemma holds_pcs : forall K c A p q, holds K c A -> holds K (set_pcs p q c) A.
Proof. intros K c A p q []. constructor; assumption. Qed.

(** ** A thread that waits is not touched *)
Lemma kept_ext : forall K m m' A p q, kept K m A p q -> confined K A -> (forall a, own K a -> m' a = m a) -> kept K m' A p q.
Proof.
  intros K m m' A p q H C E. pose proof (kt_shape _ _ _ _ _ H) as Sh. pose proof (sp_range K A 0 Sh (sh_depth K A Sh)) as R0.
  assert (Ow : forall o, 0 <= o <= 84 -> m' (p_sp A 0 - o) = m (p_sp A 0 - o)) by (intros o Ho; apply E; left; clear - R0 Ho; lia).
  constructor.
  - exact Sh.
  - rewrite Ow by (clear; lia). exact (kt_count _ _ _ _ _ H).
  - intros r v Hr Ev. rewrite Ow by (clear - Hr; lia). exact (kt_glob _ _ _ _ _ H r v Hr Ev).
  - intros r v Hr N Ev. rewrite Ow by (clear - Hr; lia). exact (kt_out _ _ _ _ _ H r v Hr N Ev).
  - intros k r v Hk Hr Ev. rewrite E; [exact (kt_fr _ _ _ _ _ H k r v Hk Hr Ev)|]. left. pose proof (sp_range K A k Sh Hk) as Rg. clear - Rg Hr. lia.
  - intros a v Ev. rewrite E; [exact (kt_mem _ _ _ _ _ H a v Ev)|exact (C a v Ev)].
  - rewrite Ow by (clear; lia). exact (kt_pc _ _ _ _ _ H).
  - rewrite Ow by (clear; lia). exact (kt_npc _ _ _ _ _ H).
Qed.

(** ** One event *)
Section Threads.
Variables (k : kern) (fatal : sparc -> option sparc) (h : nat -> nat -> sparc -> option sparc) (N : nat) (K : nat -> place) (slot : nat -> Z).
Hypothesis P : placed N K (arch_sp k) slot.
Hypothesis SV : forall i j c, (i < N)%nat -> (j < N)%nat -> exists c', h i j c = Some c' /\ serves N K (arch_sp k) slot i j c c'.

Lemma go_ok : forall s c l p q s', shows N K slot s c -> t_step N K s (Go l p q) = Some s' ->
  exists c', c_event k fatal h (who s, c) (Go l p q) = Some (who s', c') /\ shows N K slot s' c' /\ (forall a, acc c' a = acc c a).
Proof.
  intros s c l p q s' H E. cbn [t_step c_event] in *. destruct (p_run (K (who s)) (progs s (who s)) l) as [A'|] eqn:R; [|discriminate].
  assert (Es : s' = mkThreads (who s) (put (progs s) (who s) A') (put (at_ s) (who s) (p, q))) by (injection E as <-; reflexivity). clear E. subst s'. cbn [who].
  pose proof (s_who _ _ _ _ _ H) as Hw.
  destruct (run_all (K (who s)) l c _ A' (s_run _ _ _ _ _ H) (s_conf _ _ _ _ _ H _ Hw) R) as (c' & Rc & H' & C' & F & Ac). rewrite Rc.
  exists (set_pcs p q c'). split; [reflexivity|]. split; [|exact Ac].
  assert (Pt : forall T (f : nat -> T) v n, n <> who s -> put f (who s) v n = f n).
  { intros T f v n Hn. unfold put. destruct (Nat.eqb_spec n (who s)); [contradiction|reflexivity]. }
  assert (Ps : forall T (f : nat -> T) v, put f (who s) v (who s) = v) by (intros T f v; unfold put; rewrite Nat.eqb_refl; reflexivity).
  constructor; cbn [who progs at_].
  - exact Hw.
  - rewrite Ps. apply holds_pcs. exact H'.
  - rewrite Ps. reflexivity.
  - intros n Hn. destruct (Nat.eq_dec n (who s)) as [-> | N1]; [rewrite Ps; exact C'|rewrite Pt by exact N1; exact (s_conf _ _ _ _ _ H n Hn)].
  - intros n Hn N1. rewrite !Pt by exact N1. cbn [mem set_pcs]. apply kept_ext with (mem c); [exact (s_kept _ _ _ _ _ H n Hn N1)|exact (s_conf _ _ _ _ _ H n Hn)|].
    intros a Ha. apply F. intros Hb. apply N1. exact (pl_apart _ _ _ _ P n (who s) a Hn Hw Ha Hb).
  - intros n Hn N1. rewrite Pt by exact N1. cbn [mem set_pcs]. rewrite F by (apply (pl_slot _ _ _ _ P); assumption). exact (s_slot _ _ _ _ _ H n Hn N1).
  - intros n a Hn Ha. cbn [acc set_pcs]. rewrite Ac. exact (s_acc _ _ _ _ _ H n a Hn Ha).
Qed.

Lemma switch_ok : forall s c j, shows N K slot s c -> (j < N)%nat -> resident c <= 6 -> 1 <= acc c (arch_sp k) ->
  exists c', c_event k fatal h (who s, c) (Switch j) = Some (j, c') /\ shows N K slot (mkThreads j (progs s) (at_ s)) c' /\ (forall a, acc c' a = acc c a).
Proof.
  intros s c j H Hj R6 Haa. pose proof (s_who _ _ _ _ _ H) as Hw. set (i := who s) in *.
  destruct (suspend k 0x18 (K i) c (progs s i) (s_run _ _ _ _ _ H) R6) as
    (c1 & E1 & Kt & C1 & B1 & W1 & Y1 & A1 & K8 & K9 & K11 & K13 & K14 & F1).
  assert (F1' : forall a, ~ own (K i) a -> mem c1 a = mem c a) by (intros a Ha; apply F1; intros Hb; apply Ha; left; exact Hb).
  set (c1' := set_mem (upd (mem c1) (arch_sp k) (reg c1 13)) c1).
  destruct (SV i j c1' Hw Hj) as (c2 & E2 & (C2 & B2 & A2 & O2 & S2 & V2 & X2)).
  assert (Var1 : mem c1' (arch_sp k) = p_sp (progs s i) 0) by (unfold c1'; cbn [mem set_mem]; unfold upd; rewrite Z.eqb_refl; exact K13).
  assert (Oth : forall a, a <> arch_sp k -> mem c1' a = mem c1 a).
  { intros a Ha. unfold c1'. cbn [mem set_mem]. unfold upd. destruct (Z.eqb_spec a (arch_sp k)); [contradiction|reflexivity]. }
  assert (Own1 : forall n a, (n < N)%nat -> own (K n) a -> mem c2 a = mem c1 a).
  { intros n a Hn Ha. rewrite (O2 n a Hn Ha). apply Oth. intros ->. exact (pl_var _ _ _ _ P n Hn Ha). }
  assert (Ap : forall n a, (n < N)%nat -> n <> i -> own (K n) a -> ~ own (K i) a).
  { intros n a Hn Nn Ha Hb. apply Nn. exact (pl_apart _ _ _ _ P n i a Hn Hw Ha Hb). }
  (* every thread is kept now *)
  assert (All : forall n, (n < N)%nat -> kept (K n) (mem c2) (progs s n) (fst (at_ s n)) (snd (at_ s n))).
  { intros n Hn. destruct (Nat.eq_dec n i) as [-> | Nn].
    - apply kept_ext with (mem c1); [|exact (s_conf _ _ _ _ _ H i Hw)|intros a Ha; exact (Own1 i a Hw Ha)].
      pose proof (s_pc _ _ _ _ _ H) as Ep. fold i in Ep. rewrite Ep. exact Kt.
    - apply kept_ext with (mem c); [exact (s_kept _ _ _ _ _ H n Hn Nn)|exact (s_conf _ _ _ _ _ H n Hn)|].
      intros a Ha. rewrite (Own1 n a Hn Ha). apply F1'. exact (Ap n a Hn Nn Ha). }
  assert (Slots : forall n, (n < N)%nat -> mem c1' (slot n) = mem c (slot n)).
  { intros n Hn. rewrite Oth by (exact (pl_other _ _ _ _ P n Hn)). apply F1'. apply (pl_slot _ _ _ _ P); assumption. }
  assert (Var2 : mem c2 (arch_sp k) = p_sp (progs s j) 0).
  { destruct (Nat.eq_dec i j) as [Q|Q].
    - rewrite (V2 Q), Var1. subst j. reflexivity.
    - rewrite (proj1 (X2 Q)), Slots by exact Hj. apply (s_slot _ _ _ _ _ H); [exact Hj|]. intros Q'. apply Q. symmetry. exact Q'. }
  assert (AccA : forall a, acc c2 a = acc c a) by (intros a; rewrite A2; unfold c1'; cbn [acc set_mem]; rewrite A1; reflexivity).
  destruct (continue_ k (K j) c2 (progs s j) _ _ (All j Hj)) as (c' & E3 & H3 & P3 & Q3 & M3 & A3 & _).
  { rewrite C2. change (cwp c1') with (cwp c1). clear - C1. lia. }
  { unfold SUP. rewrite B2 by (clear; lia). change (psr c1') with (psr c1). rewrite B1 by (clear; lia). reflexivity. }
  { unfold PS. rewrite B2 by (clear; lia). change (psr c1') with (psr c1). rewrite B1 by (clear; lia). reflexivity. }
  { exact (pl_align _ _ _ _ P). }
  { rewrite AccA. exact Haa. }
  { exact Var2. }
  { intros a Ha. rewrite AccA. apply (s_acc _ _ _ _ _ H j); [exact Hj|left; exact Ha]. }
  { intros a Ha. rewrite AccA. apply (s_acc _ _ _ _ _ H j); [exact Hj|right; exact Ha]. }
  { intros a v Ev. rewrite AccA. apply (s_acc _ _ _ _ _ H j); [exact Hj|]. exact (s_conf _ _ _ _ _ H j Hj a v Ev). }
  exists c'. split.
  { cbn [c_event]. fold i. unfold whole. rewrite E1. cbn [bind]. unfold trap_handler. rewrite K11. change (registered (h i j) (fun _ => None) 24) with (Some (h i j)). cbv beta iota zeta. fold c1'.
    rewrite E2. cbn [bind]. rewrite E3. reflexivity. }
  split; [|intros a; rewrite A3; apply AccA].
  constructor; cbn [who progs at_].
  - exact Hj.
  - exact H3.
  - rewrite P3, Q3. destruct (at_ s j); reflexivity.
  - exact (s_conf _ _ _ _ _ H).
  - intros n Hn _. rewrite M3. exact (All n Hn).
  - intros n Hn Nn. rewrite M3. destruct (Nat.eq_dec n i) as [-> | Ni].
    + rewrite (proj2 (X2 Nn)). exact Var1.
    + rewrite S2 by assumption. rewrite Slots by exact Hn. exact (s_slot _ _ _ _ _ H n Hn Ni).
  - intros n a Hn Ha. rewrite A3, AccA. exact (s_acc _ _ _ _ _ H n a Hn Ha).
Qed.

(** ** Histories *)
(** No interrupt comes while seven frames are in windows. *)
Fixpoint calm (s : nat * sparc) (l : list event) {struct l} : Prop :=
  match l with
  | [] => True
  | e :: r => match e with Switch _ => resident (snd s) <= 6 | _ => True end /\
              match c_event k fatal h s e with Some s' => calm s' r | None => True end
  end.
Lemma history_ok : forall l s c s', shows N K slot s c -> 1 <= acc c (arch_sp k) -> t_run N K s l = Some s' -> calm (who s, c) l ->
  exists c', c_events k fatal h (who s, c) l = Some (who s', c') /\ shows N K slot s' c'.
Proof.
  induction l as [|e l IH]; intros s c s' H Haa E Cm; cbn [t_run c_events calm] in *.
  - assert (Es : s' = s) by (injection E as <-; reflexivity). subst s'. exists c. split; [reflexivity|exact H].
  - destruct (t_step N K s e) as [s1|] eqn:E1; [|discriminate]. destruct Cm as [Cr Cm]. destruct e as [ops p q|j].
    + destruct (go_ok s c ops p q s1 H E1) as (c1 & R1 & H1 & A1). rewrite R1 in *. apply (IH s1 c1 s' H1); [rewrite A1; exact Haa|exact E|exact Cm].
    + cbn [t_step] in E1. destruct (Nat.ltb_spec j N) as [Hj|]; [|discriminate].
      assert (Es : s1 = mkThreads j (progs s) (at_ s)) by (injection E1 as <-; reflexivity). subst s1.
      destruct (switch_ok s c j H Hj Cr Haa) as (c1 & R1 & H1 & A1). rewrite R1 in *. apply (IH (mkThreads j (progs s) (at_ s)) c1 s' H1); [rewrite A1; exact Haa|exact E|exact Cm].
Qed.
End Threads.
