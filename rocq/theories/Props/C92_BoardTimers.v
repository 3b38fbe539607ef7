(** C92: the timers of the PowerPC and SPARC boards count the time that has passed. *)
From Verif Require Import Model.Base Spec.GpTimer Model.BoardTimer Proof.Tac.

(** ** PowerPC *)
(** The time base is read as it was at one moment, though in halves. *)
Theorem C92_time_base : forall t1 t2 t3 v, 0 <= t1 -> t1 <= t2 <= t3 -> read_tb t1 t2 t3 = Some v -> v = t2.
Proof.
  intros t1 t2 t3 v H0 H12 H. unfold read_tb in H. cbv zeta in H. destruct (Z.eqb_spec (t3 / 2 ^ 32) (t1 / 2 ^ 32)) as [E|]; [|discriminate]. injection H as <-. lia.
Qed.
Print Assumptions C92_time_base.
Theorem C92_time_base_again : forall t1 t2 t3, t1 <= t2 <= t3 -> read_tb t1 t2 t3 = None -> exists k, t1 < k * 2 ^ 32 <= t3.
Proof.
  intros t1 t2 t3 H12 H. unfold read_tb in H. cbv zeta in H. destruct (Z.eqb_spec (t3 / 2 ^ 32) (t1 / 2 ^ 32)) as [|N]; [discriminate|]. exists (t1 / 2 ^ 32 + 1). lia.
Qed.
Print Assumptions C92_time_base_again.

(** [start]: when the timer was set up. [n] periods have been counted and the next interrupt is due at the end of period n + 1. *)
Definition counts (start period n : Z) (s : decr) : Prop :=
  inter s = period /\ due s = start + period * (n + 1) /\ ticks s = 40 * n.
(** The readings of an interrupt: increasing, not before the interrupt was due, and less than 2^31 cycles after. *)
Fixpoint later (t : Z) (l : list Z) : Prop := match l with [] => True | x :: r => t <= x /\ later x r end.

Lemma later_all : forall l t x, later t l -> In x l -> t <= x.
Proof. induction l as [|y l IH]; intros t x H I; [destruct I|]. destruct H as [H1 H2]. destruct I as [<- | I]; [exact H1|]. pose proof (IH y x H2 I). lia. Qed.
Lemma s32_small : forall x, - 2 ^ 31 <= x < 2 ^ 31 -> s32 x = x.
Proof. intros x Hx. unfold s32, sgn. change (32 - 1) with 31. cbv zeta. destruct (Z.ltb_spec (x mod 2 ^ 32) (2 ^ 31)); lia. Qed.
Lemma set_small : forall t s, 0 <= due s -> 0 < inter s -> due s + inter s < 2 ^ 63 -> - 2 ^ 31 <= due s + inter s - t < 2 ^ 31 ->
  set_decr t s = if due s + inter s <? t then (false, mkDecr (due s + inter s) (inter s) (ticks s) (dec s)) else (true, mkDecr (due s + inter s) (inter s) (ticks s) (due s + inter s - t)).
Proof.
  intros t s H0 H1 H2 H3. unfold set_decr. cbv zeta. assert (E : u64 (due s + inter s) = due s + inter s) by (unfold u64; apply Z.mod_small; lia). rewrite E. rewrite s32_small by exact H3.
  destruct (Z.ltb_spec (due s + inter s - t) 0); destruct (Z.ltb_spec (due s + inter s) t); try lia; reflexivity.
Qed.

(** After an interrupt the counter has counted the periods that are over, exactly: the last reading [now] is in period m + 1; the next interrupt is at the end of that period. *)
Theorem C92_ppc_counts : forall start period n s l s', counts start period n s -> 0 <= start -> 0 <= n -> 0 < period < 2 ^ 31 ->
  later (due s) l -> (forall t, In t l -> t < due s + 2 ^ 31 - period) -> due s < 2 ^ 58 -> decr_int l s = Some s' ->
  exists m now, n < m /\ In now l /\ counts start period m s' /\ start + period * m <= now <= start + period * (m + 1) /\ dec s' = due s' - now.
Proof.
  intros start period n s l s' (C1 & C2 & C3) Hs Hn Hp HL HB HW H.
  assert (G : forall l k s, inter s = period -> due s = start + period * (k + 1) -> ticks s = 40 * k -> n <= k -> later (due s) l -> (forall t, In t l -> t < start + period * (n + 1) + 2 ^ 31 - period) ->
     start + period * (n + 1) < 2 ^ 58 -> start + period * (k + 1) < start + period * (n + 1) + 2 ^ 31 -> decr_int l s = Some s' ->
     exists m now, n < m /\ In now l /\ counts start period m s' /\ start + period * m <= now <= start + period * (m + 1) /\ dec s' = due s' - now).
  { clear H HL HB HW C1 C2 C3 s l. induction l as [|t l IH]; intros k s C1 C2 C3 Hk HL HB HW HW2 H; [discriminate H|]. cbn [decr_int] in H. destruct HL as [HL1 HL2].
    assert (PP : 0 <= period * (n + 1) /\ period * (n + 1) <= period * (k + 1)) by (split; [nia|]; apply Z.mul_le_mono_nonneg_l; lia).
    pose proof (HB t (or_introl eq_refl)) as HT.
    assert (ND : period * (k + 1 + 1) = period * (k + 1) + period) by ring. 
    rewrite set_small in H; [|lia|lia|lia|lia].
    destruct (Z.ltb_spec (due s + inter s) t) as [Lt | Ge].
    - cbn [ticks inter due dec] in H. rewrite C1, C2 in *.
      assert (TK : u64 (ticks s + FREQ_DIV) = 40 * (k + 1)).
      { rewrite C3. unfold u64, FREQ_DIV. rewrite Z.mod_small; [lia|]. assert (k + 1 <= period * (k + 1)) by nia. lia. }
      apply (IH (k + 1)) in H; cbn [inter due ticks]; try lia.
      + destruct H as (m & now & A & B & D). exists m, now. split; [lia|]. split; [now right|exact D].
      + clear - HL2 Lt. destruct l as [|x l]; [exact I|]. destruct HL2. split; [lia|assumption].
      + intros x Hx. apply HB. now right.
    - cbn [ticks inter due dec] in H. injection H as <-. exists (k + 1), t. split; [lia|]. split; [now left|]. unfold counts. cbn [ticks inter due dec]. rewrite C1, C2 in *.
      assert (TK : u64 (ticks s + FREQ_DIV) = 40 * (k + 1)).
      { rewrite C3. unfold u64, FREQ_DIV. rewrite Z.mod_small; [lia|]. assert (k + 1 <= period * (k + 1)) by nia. lia. }
      repeat split; lia. }
  apply (G l n s); try assumption; try lia.
Qed.
Print Assumptions C92_ppc_counts.

(** The loop of the handler is over as soon as the time base has been read often enough, whatever the (bounded) delay. *)
Theorem C92_ppc_ends : forall l s top, 0 <= due s <= top -> due s < 2 ^ 58 -> 0 < inter s < 2 ^ 31 -> (forall t, In t l -> due s <= t <= top) ->
  top < due s + 2 ^ 31 - inter s -> top - due s < inter s * Z.of_nat (length l) -> decr_int l s <> None.
Proof.
  intros l s top H0 HW Hp HL HB H.
  assert (G : forall l s x, x <= due s -> 0 <= x -> 0 < inter s < 2 ^ 31 -> (forall t, In t l -> x <= t <= top) -> x < 2 ^ 58 -> due s <= top ->
     top < x + 2 ^ 31 - inter s -> top - due s < inter s * Z.of_nat (length l) -> decr_int l s <> None).
  { clear. induction l as [|t l IH]; intros s x Hx H0 Hp HT HW HD HB H.
    - cbn [length] in H. lia.
    - cbn [decr_int]. pose proof (HT t (or_introl eq_refl)) as Ht. rewrite set_small by lia. destruct (Z.ltb_spec (due s + inter s) t) as [L | L]; [|discriminate].
      cbn [due inter ticks dec]. apply (IH _ x); cbn [due inter ticks dec]; try lia; try (intros y Hy; apply HT; now right).
      cbn [length] in H. assert (E : inter s * Z.of_nat (S (length l)) = inter s * Z.of_nat (length l) + inter s) by (rewrite Nat2Z.inj_succ; ring). lia. }
  apply (G l s (due s)); try assumption; lia.
Qed.
Print Assumptions C92_ppc_ends.

(** Full statement: however late the interrupt, the periods that are over are counted. From 2^31 cycles on, they are not: the difference is cut to 32 bits and looks like the future. For every such delay of less than
    2^32 the handler counts one period and sets the decrementer to up to 2^31 cycles. *)
Theorem C92_ppc_late_refuted : forall s t l, 0 <= due s < 2 ^ 58 -> 0 < inter s < 2 ^ 31 -> 0 <= ticks s < 2 ^ 58 -> due s + inter s + 2 ^ 31 < t <= due s + inter s + 2 ^ 32 ->
  exists s', decr_int (t :: l) s = Some s' /\ ticks s' = ticks s + 40 /\ due s' < t - 2 ^ 31 /\ dec s' = due s' + 2 ^ 32 - t.
Proof.
  intros s t l H0 Hp HK HT. cbn [decr_int]. unfold set_decr. cbv zeta.
  assert (E : u64 (due s + inter s) = due s + inter s) by (unfold u64; apply Z.mod_small; lia). rewrite E.
  assert (D : s32 (due s + inter s - t) = due s + inter s + 2 ^ 32 - t).
  { unfold s32, sgn. change (32 - 1) with 31. cbv zeta. replace ((due s + inter s - t) mod 2 ^ 32) with (due s + inter s + 2 ^ 32 - t).
    - destruct (Z.ltb_spec (due s + inter s + 2 ^ 32 - t) (2 ^ 31)); lia.
    - apply (Z.mod_unique _ _ (-1)); lia. }
  rewrite D. destruct (Z.ltb_spec (due s + inter s + 2 ^ 32 - t) 0); [lia|]. eexists. split; [reflexivity|]. cbn [ticks due dec].
  split; [unfold u64, FREQ_DIV; apply Z.mod_small; lia|]. split; [lia|reflexivity].
Qed.
Print Assumptions C92_ppc_late_refuted.

(** Full statement: pok_tick_counter is in nanoseconds, as everywhere in the kernel (core/thread.c:238, leon3/timer.c:40). With a time base of BUS_FREQ, 10 ns per cycle, it counts 40 for every 400000. *)
Theorem C92_ppc_units_refuted : forall t0 t1 n s now, 0 <= t0 <= t1 -> t1 <= t0 + 40000 -> t0 < 2 ^ 58 ->
  counts t0 40000 0 (ppc_time_init t0 t1) /\
  (counts t0 40000 n s -> t0 + 40000 * n <= now -> 0 < n -> ticks s * 10000 <= 10 * (now - t0) /\ ticks s < 10 * (now - t0)).
Proof.
  intros t0 t1 n s now H0 H1 HW. split.
  - unfold ppc_time_init. change (u32 (BUS_FREQ * FREQ_DIV) / TIMER_FREQUENCY) with 40000. rewrite set_small by (cbn [due inter]; lia). cbn [due inter ticks dec].
    destruct (Z.ltb_spec (t0 + 40000) t1); [lia|]. unfold counts. cbn [snd due inter ticks]. repeat split; lia.
  - intros (_ & _ & C) Hn Hp. rewrite C. lia.
Qed.
Print Assumptions C92_ppc_units_refuted.

(** ** SPARC *)
Lemma gpt_count : forall n g, 0 <= scaler g <= scaler_reload g -> 0 <= counter g <= reload g ->
  let p := (scaler_reload g + 1) * (reload g + 1) in let r := scaler g + (scaler_reload g + 1) * counter g in
  interrupts n g = (Z.of_nat n + (p - 1 - r)) / p.
Proof.
  induction n as [|n IH]; intros g Hs Hc p r.
  - cbn [interrupts]. symmetry. apply Z.div_small. unfold p, r. nia.
  - assert (P : 0 < p) by (unfold p; nia). cbn [interrupts]. unfold clock. destruct (Z.eqb_spec (scaler g) 0) as [S0 | S1]; [destruct (Z.eqb_spec (counter g) 0) as [C0 | C1]|].
    + rewrite IH by (cbn; lia). cbn [scaler scaler_reload counter reload]. fold p.
      replace (scaler_reload g + (scaler_reload g + 1) * reload g) with (p - 1) by (unfold p; ring).
      assert (R : r = 0) by (unfold r; rewrite S0, C0; ring). rewrite R. replace (p - 1 - (p - 1)) with 0 by ring.
      replace (Z.of_nat (S n) + (p - 1 - 0)) with (Z.of_nat n + 0 + 1 * p) by lia. rewrite Z.div_add by lia. lia.
    + rewrite IH by (cbn; lia). cbn [scaler scaler_reload counter reload]. fold p. rewrite Z.add_0_l. f_equal. unfold r. rewrite S0. rewrite Nat2Z.inj_succ. ring_simplify. lia.
    + rewrite IH by (cbn; lia). cbn [scaler scaler_reload counter reload]. fold p. rewrite Z.add_0_l. f_equal. unfold r. rewrite Nat2Z.inj_succ. ring_simplify. lia.
Qed.
(** The timer that the kernel sets up requests an interrupt every 1002 clocks, ... *)
Theorem C92_sparc_period : forall n, interrupts n sparc_time_init = Z.of_nat n / 1002.
Proof. intros n. rewrite gpt_count by (cbn; lia). cbn [sparc_time_init scaler scaler_reload counter reload]. change (SPARC_PROC_FREQ / TIMER_FREQUENCY) with 500. f_equal. lia. Qed.
Print Assumptions C92_sparc_period.
(** ... Full statement: the tick counter is the time in nanoseconds, 20 for each clock of 50 MHz, up to one period of 10 us. It is less than half of that: prescaler and timer count from their reload value to zero, which is one more than
    the value, and the prescaler halves the clock. *)
Theorem C92_sparc_refuted : (forall n, Z.of_nat n < 2 ^ 50 -> sparc_ticks (interrupts n sparc_time_init) <= 20 * Z.of_nat n / 2) /\
  sparc_ticks (interrupts (Z.to_nat SPARC_PROC_FREQ) sparc_time_init) = 499000000.
Proof.
  split.
  - intros n Hn. rewrite C92_sparc_period. unfold sparc_ticks, u64. rewrite Z.mod_small; lia.
  - rewrite C92_sparc_period. rewrite Z2Nat.id by (unfold SPARC_PROC_FREQ; lia). vm_compute. reflexivity.
Qed.
Print Assumptions C92_sparc_refuted.

(** ** Examples *)
(** Set up at 1000; an interrupt that comes 2.5 periods late counts three periods with readings a bit later each. *)
Example counts_example : decr_int [141000; 141010; 141020; 141030] (ppc_time_init 1000 1000) = Some (mkDecr 161000 40000 120 19980) /\ counts 1000 40000 3 (mkDecr 161000 40000 120 19980).
Proof. split; [vm_compute; reflexivity|]. repeat split. Qed.
Example read_example : read_tb (2 ^ 32 - 1) (2 ^ 32) (2 ^ 32 + 1) = None /\ read_tb (2 ^ 32) (2 ^ 32 + 5) (2 ^ 32 + 9) = Some (2 ^ 32 + 5).
Proof. split; reflexivity. Qed.
Example late_example : decr_int [2 ^ 31 + 50000] (mkDecr 0 40000 0 0) = Some (mkDecr 40000 40000 40 2147473648).
Proof. vm_compute. reflexivity. Qed.
