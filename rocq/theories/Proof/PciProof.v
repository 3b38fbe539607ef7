(** Proofs about PCI and the ports of partitions. *)
From Verif Require Import Model.Base Proof.Tac Spec.Pci Model.Pci.

Lemma lor_add : forall n a b, 0 <= n -> 0 <= b < 2 ^ n -> Z.lor (a * 2 ^ n) b = a * 2 ^ n + b.
Proof.
  intros n a b Hn Hb. assert (L : Z.land (a * 2 ^ n) b = 0).
  { apply Z.bits_inj'. intros i Hi. rewrite Z.land_spec, Z.bits_0. destruct (Z.lt_ge_cases i n) as [L|L].
    - rewrite Z.mul_pow2_bits_low by lia. reflexivity.
    - replace (Z.testbit b i) with false; [apply andb_false_r|]. symmetry. destruct (Z.eq_dec b 0) as [-> |N]; [apply Z.bits_0|]. apply Z.bits_above_log2; [lia|]. apply Z.log2_lt_pow2; [lia|].
      pose proof (Z.pow_le_mono_r 2 n i ltac:(lia) L). lia. }
  rewrite <- Z.lxor_lor, <- Z.add_nocarry_lxor by exact L. reflexivity.
Qed.
Definition at4 (c : space) (b d f r : Z) : Z := c b d f (r + 0) + 256 * c b d f (r + 1) + 65536 * c b d f (r + 2) + 16777216 * c b d f (r + 3).
Lemma addr_ok : forall b d f w k, 0 <= b < 256 -> 0 <= d < 32 -> 0 <= f < 8 -> 0 <= w < 64 -> 0 <= k < 4 ->
  u32 (Z.lor (Z.lor (Z.lor (Z.lor (Z.shiftl 1 31) (Z.shiftl b 16)) (Z.shiftl d 11)) (Z.shiftl f 8)) (Z.land (w * 4 + k) 0xfc)) = 2 ^ 31 + b * 65536 + d * 2048 + f * 256 + w * 4.
Proof.
  intros b d f w k Hb Hd Hf Hw Hk. assert (L : Z.land (w * 4 + k) 0xfc = w * 4).
  { assert (T : forallb (fun r => Z.land (Z.of_nat r) 0xfc =? Z.of_nat r / 4 * 4) (seq 0 256) = true) by (vm_compute; reflexivity). rewrite forallb_forall in T.
    specialize (T (Z.to_nat (w * 4 + k)) ltac:(apply in_seq; lia)). rewrite Z2Nat.id in T by lia. apply Z.eqb_eq in T. rewrite T. clear - Hw Hk. lia. }
  rewrite L. rewrite !Z.shiftl_mul_pow2 by lia. rewrite (lor_add 31) by lia.
  replace (1 * 2 ^ 31 + b * 2 ^ 16) with ((32768 + b) * 2 ^ 16) by lia. rewrite (lor_add 16) by lia.
  replace ((32768 + b) * 2 ^ 16 + d * 2 ^ 11) with ((1048576 + b * 32 + d) * 2 ^ 11) by lia. rewrite (lor_add 11) by lia.
  replace ((1048576 + b * 32 + d) * 2 ^ 11 + f * 2 ^ 8) with ((8388608 + b * 256 + d * 8 + f) * 2 ^ 8) by lia. rewrite (lor_add 8) by lia.
  unfold u32. rewrite Z.mod_small by lia. lia.
Qed.
Lemma read_ok : forall c b d f w k, 0 <= b < 256 -> 0 <= d < 32 -> 0 <= f < 8 -> 0 <= w < 64 -> 0 <= k < 4 -> pci_read c b d f (w * 4 + k) = at4 c b d f (w * 4) / 2 ^ (8 * k).
Proof.
  intros c b d f w k Hb Hd Hf Hw Hk. unfold pci_read. cbv zeta. rewrite addr_ok by assumption. set (a := 2 ^ 31 + b * 65536 + d * 2048 + f * 256 + w * 4).
  assert (A1 : field a 31 1 = 1) by (unfold field, a; clear - Hb Hd Hf Hw; lia). assert (A2 : field a 16 8 = b) by (unfold field, a; clear - Hb Hd Hf Hw; lia).
  assert (A3 : field a 11 5 = d) by (unfold field, a; clear - Hb Hd Hf Hw; lia). assert (A4 : field a 8 3 = f) by (unfold field, a; clear - Hb Hd Hf Hw; lia).
  assert (A5 : field a 2 6 = w) by (unfold field, a; clear - Hb Hd Hf Hw; lia).
  unfold data. rewrite A1, A2, A3, A4, A5. cbn [Z.eqb Pos.eqb]. assert (K : Z.land (w * 4 + k) 3 = k) by (change 3 with (Z.ones 2); rewrite Z.land_ones by lia; clear - Hk; lia). rewrite K.
  rewrite Z.shiftl_mul_pow2 by lia. rewrite Z.shiftr_div_pow2 by lia. replace (k * 2 ^ 3) with (8 * k) by lia. reflexivity.
Qed.
Section Regs.
Variables (c : space) (b d f : Z).
Hypotheses (C : bytes c) (Hb : 0 <= b < 256) (Hd : 0 <= d < 32) (Hf : 0 <= f < 8).
Ltac go w k := let R := fresh in pose proof (read_ok c b d f w k Hb Hd Hf ltac:(lia) ltac:(lia)) as R; match type of R with pci_read _ _ _ _ ?x = _ => let y := eval vm_compute in x in change x with y in R end; rewrite R; clear R;
  unfold at4; match goal with |- context [c b d f (?x + 0)] => let y0 := eval vm_compute in (x + 0) in let y1 := eval vm_compute in (x + 1) in let y2 := eval vm_compute in (x + 2) in let y3 := eval vm_compute in (x + 3) in
     change (x + 0) with y0; change (x + 1) with y1; change (x + 2) with y2; change (x + 3) with y3;
     pose proof (C b d f y0); pose proof (C b d f y1); pose proof (C b d f y2); pose proof (C b d f y3);
     set (g0 := c b d f y0) in *; set (g1 := c b d f y1) in *; set (g2 := c b d f y2) in *; set (g3 := c b d f y3) in * end.
Lemma read_vendor : u16 (pci_read c b d f 0x00) = vendor c b d f.
Proof. unfold vendor. go 0 0. unfold u16. clearbody g0 g1 g2 g3. clear - H H0 H1 H2. change (2 ^ (8 * 0)) with 1. lia. Qed.
Lemma read_device : u16 (pci_read c b d f 0x02) = device c b d f.
Proof. unfold device. go 0 2. unfold u16. clearbody g0 g1 g2 g3. clear - H H0 H1 H2. change (2 ^ (8 * 2)) with 65536. lia. Qed.
Lemma read_header : pci_read c b d f 0x0e = c b d f 14 + 256 * bist c b d f.
Proof. unfold bist. go 3 2. clearbody g0 g1 g2 g3. clear - H H0 H1 H2. change (2 ^ (8 * 2)) with 65536. lia. Qed.
Lemma read_bar : pci_read c b d f 0x10 = bar0 c b d f.
Proof. unfold bar0. go 4 0. clearbody g0 g1 g2 g3. clear - H H0 H1 H2. change (2 ^ (8 * 0)) with 1. lia. Qed.
Lemma read_line : u8 (pci_read c b d f 0x3c) = line c b d f.
Proof. unfold line. go 15 0. unfold u8. clearbody g0 g1 g2 g3. clear - H H0 H1 H2. change (2 ^ (8 * 0)) with 1. lia. Qed.
Lemma fits_ok : forall v dv, fits c v dv (b, d, f) = true <-> vendor c b d f = v /\ device c b d f = dv /\ c b d f 14 = 0 /\ bist c b d f = 0.
Proof.
  intros v dv. unfold fits. rewrite read_vendor, read_device, read_header, !andb_true_iff, !Z.eqb_eq. pose proof (C b d f 14). pose proof (C b d f 15). unfold bist.
  set (x := c b d f 14) in *. set (y := c b d f 15) in *. clearbody x y. clear - H H0. split; [intros ((A & B) & E)|intros (A & B & E & F)]; repeat split; try assumption; lia.
Qed.
End Regs.

Definition unkey (n : nat) : Z * Z * Z := (Z.of_nat n / 256, Z.of_nat n / 8 mod 32, Z.of_nat n mod 8).
Lemma slots_eq : slots = map unkey (seq 0 2048).
Proof. vm_compute. reflexivity. Qed.
Lemma find_seq : forall (g : Z * Z * Z -> bool) k s,
  match find g (map unkey (seq s k)) with
  | Some x => exists n, (s <= n < s + k)%nat /\ x = unkey n /\ g x = true /\ forall m, (s <= m < n)%nat -> g (unkey m) = false
  | None => forall m, (s <= m < s + k)%nat -> g (unkey m) = false
  end.
Proof.
  intros g k. induction k as [|k IH]; intros s; cbn [seq map find]; [intros m Hm; lia|]. destruct (g (unkey s)) eqn:E.
  - exists s. split; [lia|]. split; [reflexivity|]. split; [exact E|]. intros m Hm. lia.
  - specialize (IH (S s)). destruct (find g (map unkey (seq (S s) k))) as [x|].
    + destruct IH as (n & Hn & X & G & F). exists n. split; [lia|]. split; [exact X|]. split; [exact G|]. intros m Hm. destruct (Nat.eq_dec m s) as [-> |N]; [exact E|apply F; lia].
    + intros m Hm. destruct (Nat.eq_dec m s) as [-> |N]; [exact E|apply IH; lia].
Qed.
Lemma unkey_of : forall b d f, 0 <= b < 8 -> 0 <= d < 32 -> 0 <= f < 8 -> unkey (Z.to_nat (b * 256 + d * 8 + f)) = (b, d, f).
Proof. intros b d f Hb Hd Hf. unfold unkey. rewrite Z2Nat.id by lia. repeat f_equal; clear - Hb Hd Hf; lia. Qed.

Lemma open_ok : forall c v dv, bytes c ->
  match pci_open c v dv with
  | Some (b, d, f, bar, irq) => 0 <= b < 8 /\ 0 <= d < 32 /\ 0 <= f < 8 /\ (vendor c b d f = v /\ device c b d f = dv /\ c b d f 14 = 0 /\ bist c b d f = 0) /\ bar = bar0 c b d f /\ irq = line c b d f /\
      forall b' d' f', 0 <= b' < 8 -> 0 <= d' < 32 -> 0 <= f' < 8 -> before b' d' f' b d f -> ~ (vendor c b' d' f' = v /\ device c b' d' f' = dv /\ c b' d' f' 14 = 0 /\ bist c b' d' f' = 0)
  | None => forall b d f, 0 <= b < 8 -> 0 <= d < 32 -> 0 <= f < 8 -> ~ (vendor c b d f = v /\ device c b d f = dv /\ c b d f 14 = 0 /\ bist c b d f = 0)
  end.
Proof.
  intros c v dv C. unfold pci_open. rewrite slots_eq. pose proof (find_seq (fits c v dv) 2048 0) as H. destruct (find _ _) as [[[b d] f]|].
  - destruct H as (n & Hn & X & G & F). unfold unkey in X. injection X as Eb Ed Ef.
    assert (Hb : 0 <= b < 8) by (clear - Hn Eb; lia). assert (Hd : 0 <= d < 32) by (clear - Hn Ed; lia). assert (Hf : 0 <= f < 8) by (clear - Hn Ef; lia).
    assert (En : Z.of_nat n = b * 256 + d * 8 + f) by (clear - Hn Eb Ed Ef; lia).
    split; [exact Hb|]. split; [exact Hd|]. split; [exact Hf|]. split; [apply fits_ok; try assumption; clear - Hb; lia|].
    split; [apply read_bar; try assumption; clear - Hb; lia|]. split; [apply read_line; try assumption; clear - Hb; lia|].
    intros b' d' f' Hb' Hd' Hf' O. intros K. apply (fits_ok c b' d' f' C) in K; [|clear - Hb'; lia|assumption|assumption].
    assert (L : (Z.to_nat (b' * 256 + d' * 8 + f') < n)%nat) by (unfold before in O; clear - O En Hb' Hd' Hf' Hd Hf; lia).
    specialize (F (Z.to_nat (b' * 256 + d' * 8 + f')) ltac:(lia)). rewrite unkey_of in F by assumption. rewrite F in K. discriminate.
  - intros b d f Hb Hd Hf K. apply (fits_ok c b d f C) in K; [|clear - Hb; lia|assumption|assumption].
    specialize (H (Z.to_nat (b * 256 + d * 8 + f)) ltac:(clear - Hb Hd Hf; lia)). rewrite unkey_of in H by assumption. rewrite H in K. discriminate.
Qed.
Lemma open_bar : forall c v dv b d f bar irq, bytes c -> pci_open c v dv = Some (b, d, f, bar, irq) -> 0 <= bar < 2 ^ 32.
Proof.
  intros c v dv b d f bar irq C E. pose proof (open_ok c v dv C) as H. rewrite E in H. destruct H as (_ & _ & _ & _ & -> & _). unfold bar0.
  pose proof (C b d f 16). pose proof (C b d f 17). pose proof (C b d f 18). pose proof (C b d f 19). lia.
Qed.

Lemma base_ok : forall bar, 0 <= bar < 2 ^ 32 -> Z.land bar (u32 (Z.lnot 0x1f)) = bar / 32 * 32.
Proof.
  intros bar H. change (u32 (Z.lnot 0x1f)) with (Z.shiftl (Z.ones 27) 5). apply Z.bits_inj'. intros i Hi.
  replace (bar / 32 * 32) with (Z.shiftl (Z.shiftr bar 5) 5) by (rewrite Z.shiftl_mul_pow2, Z.shiftr_div_pow2 by lia; reflexivity).
  rewrite Z.land_spec, !Z.shiftl_spec by lia. destruct (Z.lt_ge_cases i 5) as [L|L].
  - rewrite !(Z.testbit_neg_r _ (i - 5)) by lia. apply andb_false_r.
  - rewrite Z.shiftr_spec by lia. replace (i - 5 + 5) with i by lia. destruct (Z.lt_ge_cases i 32) as [L'|L'].
    + rewrite Z.ones_spec_low by lia. apply andb_true_r.
    + rewrite Z.ones_spec_high by lia. rewrite andb_false_r. symmetry. destruct (Z.eq_dec bar 0) as [-> |N]; [apply Z.bits_0|]. apply Z.bits_above_log2; [lia|]. apply Z.log2_lt_pow2; [lia|].
      pose proof (Z.pow_le_mono_r 2 32 i ltac:(lia) L'). lia.
Qed.

(** ** Histories *)
Inductive call := Register (p v d range : Z) | Inb (p a : Z) | Outb (p a v : Z).
Definition do (c : space) (input : Z -> Z) (o : call) (s : io) : io :=
  match o with Register p v d r => snd (pci_register c p v d r s) | Inb p a => snd (sys_inb input p a s) | Outb p a v => snd (sys_outb p a v s) end.
Definition run (c : space) (input : Z -> Z) (l : list call) (s : io) : io := fold_left (fun s o => do c input o s) l s.
(** The arguments are of uint32_t and uint16_t. *)
Definition fine (o : call) : Prop := match o with Register _ _ _ r => 0 <= r < 65536 | Inb _ a => 0 <= a < 2 ^ 32 | Outb _ a _ => 0 <= a < 2 ^ 32 end.

Lemma run_inv : forall (P : list call -> io -> Prop) c input l s, P [] s -> (forall h o s, In o l -> P h s -> P (h ++ [o]) (do c input o s)) -> P l (run c input l s).
Proof.
  intros P c input l s H0 HS. assert (G : forall l2 l1 s, (forall o, In o l2 -> In o l) -> P l1 s -> P (l1 ++ l2) (run c input l2 s)).
  { intros l2. induction l2 as [|o l2 IH]; intros l1 s' I K; [rewrite app_nil_r; exact K|]. change (run c input (o :: l2) s') with (run c input l2 (do c input o s')).
    replace (l1 ++ o :: l2) with ((l1 ++ [o]) ++ l2) by (rewrite <- app_assoc; reflexivity). apply IH; [intros x Hx; apply I; right; exact Hx|]. apply HS; [apply I; left; reflexivity|exact K]. }
  exact (G l [] s (fun o H => H) H0).
Qed.
