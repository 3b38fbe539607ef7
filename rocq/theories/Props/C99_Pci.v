(** C99: PCI devices and the ports of partitions. *)
From Verif Require Import Model.Base Spec.Pci Model.Pci Proof.Tac Proof.PciProof.

(** pci_read gives the bytes of the register from the one asked for to the end of its word, for every function and register. *)
Theorem C99_read : forall c b d f r, bytes c -> 0 <= b < 256 -> 0 <= d < 32 -> 0 <= f < 8 -> 0 <= r < 256 ->
  pci_read c b d f r = c b d f r + (if r mod 4 <? 3 then 256 * c b d f (r + 1) else 0) + (if r mod 4 <? 2 then 65536 * c b d f (r + 2) else 0) + (if r mod 4 <? 1 then 16777216 * c b d f (r + 3) else 0).
Proof.
  intros c b d f r C Hb Hd Hf Hr. replace r with (r / 4 * 4 + r mod 4) at 1 by (clear; lia). rewrite read_ok by (assumption || (clear - Hr; lia)). unfold at4.
  assert (K : r mod 4 = 0 \/ r mod 4 = 1 \/ r mod 4 = 2 \/ r mod 4 = 3) by (clear; lia). pose proof (C b d f (r / 4 * 4 + 0)) as B0. pose proof (C b d f (r / 4 * 4 + 1)) as B1. pose proof (C b d f (r / 4 * 4 + 2)) as B2. pose proof (C b d f (r / 4 * 4 + 3)) as B3.
  destruct K as [K|[K|[K|K]]]; rewrite K; cbn [Z.ltb Z.compare Pos.compare Pos.compare_cont].
  - replace (r / 4 * 4 + 0) with r in * by (clear - K; lia). replace (r / 4 * 4 + 1) with (r + 1) in * by (clear - K; lia). replace (r / 4 * 4 + 2) with (r + 2) in * by (clear - K; lia). replace (r / 4 * 4 + 3) with (r + 3) in * by (clear - K; lia).
    change (2 ^ (8 * 0)) with 1. clear - B0 B1 B2 B3. lia.
  - replace (r / 4 * 4 + 1) with r in * by (clear - K; lia). replace (r / 4 * 4 + 2) with (r + 1) in * by (clear - K; lia). replace (r / 4 * 4 + 3) with (r + 2) in * by (clear - K; lia). change (2 ^ (8 * 1)) with 256. clear - B0 B1 B2 B3. lia.
  - replace (r / 4 * 4 + 2) with r in * by (clear - K; lia). replace (r / 4 * 4 + 3) with (r + 1) in * by (clear - K; lia). change (2 ^ (8 * 2)) with 65536. clear - B0 B1 B2 B3. lia.
  - replace (r / 4 * 4 + 3) with r in * by (clear - K; lia). change (2 ^ (8 * 3)) with 16777216. clear - B0 B1 B2 B3. lia.
Qed.
Print Assumptions C99_read.

(** Among eight buses, pci_open finds the first function with the identity asked for that has the plain header, one function and no self test, with its base address and line; if it finds none
    there is none. *)
Theorem C99_open_partial : forall c v dv, bytes c ->
  let ok b d f := 0 <= b < 8 /\ 0 <= d < 32 /\ 0 <= f < 8 /\ vendor c b d f = v /\ device c b d f = dv /\ c b d f 14 = 0 /\ bist c b d f = 0 in
  match pci_open c v dv with
  | Some (b, d, f, bar, irq) => ok b d f /\ kind c b d f = 0 /\ bar = bar0 c b d f /\ irq = line c b d f /\ forall b' d' f', before b' d' f' b d f -> ~ ok b' d' f'
  | None => forall b d f, ~ ok b d f
  end.
Proof.
  intros c v dv C ok. pose proof (open_ok c v dv C) as H. destruct (pci_open c v dv) as [[[[[b d] f] bar] irq]|].
  - destruct H as (Hb & Hd & Hf & (A & B & E & F) & G & I & N). split; [unfold ok; repeat split; assumption || lia|]. split; [unfold kind; rewrite E; reflexivity|]. split; [exact G|]. split; [exact I|].
    intros b' d' f' O (Hb' & Hd' & Hf' & R). exact (N b' d' f' Hb' Hd' Hf' O R).
  - intros b d f (Hb & Hd & Hf & R). exact (H b d f Hb Hd Hf R).
Qed.
Print Assumptions C99_open_partial.

(** If every device that is registered has its ports at a multiple of 32 and the range given ends below 65536, then over any history a partition touches only port 0 and the ports, in the range it
    gave, of devices it registered. *)
Theorem C99_ports_partial : forall c input l, bytes c -> Forall fine l ->
  (forall p v d r b dv f bar irq, In (Register p v d r) l -> pci_open c v d = Some (b, dv, f, bar, irq) -> in_ports bar /\ ports bar mod 32 = 0 /\ ports bar + r < 65536) ->
  forall p port w, In (p, port, w) (seen (run c input l boot)) ->
  port = 0 \/ exists v d r b dv f bar irq, In (Register p v d r) l /\ pci_open c v d = Some (b, dv, f, bar, irq) /\ ports bar <= port <= ports bar + r.
Proof.
  intros c input l C Fi G.
  pose (good h p x := x = 0 \/ exists v d r b dv f bar irq, In (Register p v d r) h /\ pci_open c v d = Some (b, dv, f, bar, irq) /\ ports bar <= x <= ports bar + r).
  pose (P := fun (h : list call) (s : io) => (forall o, In o h -> In o l) /\ (forall p x, lo s p <= x <= hi s p -> good h p x /\ 0 <= x < 65536) /\ forall p x w, In (p, x, w) (seen s) -> good h p x).
  assert (mono : forall h o p x, good h p x -> good (h ++ [o]) p x).
  { intros h o p x [-> |(v & d & r & b & dv & f & bar & irq & I & K)]; [left; reflexivity|]. right. exists v, d, r, b, dv, f, bar, irq. split; [apply in_or_app; left; exact I|exact K]. }
  assert (R : P l (run c input l boot)).
  { apply (run_inv P).
    - split; [intros o []|]. split; [|intros p x w []]. intros p x Hx. cbn [lo hi boot] in Hx. assert (x = 0) as -> by lia. split; [left; reflexivity|lia].
    - intros h o s Io (I & W & T). split; [intros x Hx; apply in_app_or in Hx; destruct Hx as [Hx|[<- |[]]]; [apply I; exact Hx|exact Io]|].
      rewrite Forall_forall in Fi. specialize (Fi o Io). destruct o as [p v d r|p a|p a v]; cbn [fine] in Fi; cbn [do].
      + unfold pci_register. destruct (pci_open c v d) as [[[[[b dv] f] bar] irq]|] eqn:E; cbn [snd lo hi seen].
        * pose proof (G _ _ _ _ _ _ _ _ _ Io E) as (G1 & G2 & G3). pose proof (open_bar _ _ _ _ _ _ _ _ C E) as Hbar. rewrite base_ok by exact Hbar.
          assert (Eb : bar / 32 * 32 = ports bar) by (clear - G2; unfold ports in *; lia). rewrite Eb. assert (P0 : 0 <= ports bar) by (clear - Hbar; unfold ports; lia).
          assert (U1 : u16 (ports bar) = ports bar) by (unfold u16; apply Z.mod_small; clear - P0 G3 Fi; lia). assert (U2 : u16 (u32 (ports bar + r)) = ports bar + r) by (unfold u16, u32; rewrite (Z.mod_small _ (2 ^ 32)) by (clear - P0 G3 Fi; lia); apply Z.mod_small; clear - P0 G3 Fi; lia).
          rewrite U1, U2. split; [|intros q x w Hx; apply mono, (T q x w Hx)]. intros q x Hx. unfold upd in Hx. destruct (Z.eqb_spec q p) as [-> |N]; [|destruct (W q x Hx) as (W1 & W2); split; [apply mono; exact W1|exact W2]].
          split; [|lia]. right. exists v, d, r, b, dv, f, bar, irq. split; [apply in_or_app; right; left; reflexivity|]. split; [exact E|exact Hx].
        * split; [intros q x Hx; destruct (W q x Hx) as (W1 & W2); split; [apply mono; exact W1|exact W2]|]. intros q x w Hx. apply mono, (T q x w Hx).
      + unfold sys_inb. destruct ((a <? lo s p) || (hi s p <? a)) eqn:E; cbn [snd lo hi seen].
        * split; [intros q x Hx; destruct (W q x Hx) as (W1 & W2); split; [apply mono; exact W1|exact W2]|]. intros q x w Hx. apply mono, (T q x w Hx).
        * split; [intros q x Hx; destruct (W q x Hx) as (W1 & W2); split; [apply mono; exact W1|exact W2]|]. intros q x w Hx. apply in_app_or in Hx. destruct Hx as [Hx|[Hx|[]]]; [apply mono, (T q x w Hx)|].
          injection Hx as <- <- <-. apply orb_false_iff in E. assert (K : lo s p <= a <= hi s p) by lia. destruct (W p a K) as (W1 & W2). unfold u16. rewrite Z.mod_small by lia. apply mono. exact W1.
      + unfold sys_outb. destruct ((a <? lo s p) || (hi s p <? a)) eqn:E; cbn [snd lo hi seen].
        * split; [intros q x Hx; destruct (W q x Hx) as (W1 & W2); split; [apply mono; exact W1|exact W2]|]. intros q x w Hx. apply mono, (T q x w Hx).
        * split; [intros q x Hx; destruct (W q x Hx) as (W1 & W2); split; [apply mono; exact W1|exact W2]|]. intros q x w Hx. apply in_app_or in Hx. destruct Hx as [Hx|[Hx|[]]]; [apply mono, (T q x w Hx)|].
          injection Hx as <- <- <-. apply orb_false_iff in E. assert (K : lo s p <= a <= hi s p) by lia. destruct (W p a K) as (W1 & W2). unfold u16. rewrite Z.mod_small by lia. apply mono. exact W1. }
  destruct R as (_ & _ & R). intros p port w Hp. exact (R p port w Hp).
Qed.
Print Assumptions C99_ports_partial.

(** After such a registration the partition gets exactly the ports of its range, other accesses are refused with EPERM and touch nothing, and what other partitions may do stays as it was. *)
Theorem C99_register : forall c input s p v d r b dv f bar irq, bytes c -> 0 <= r < 65536 -> pci_open c v d = Some (b, dv, f, bar, irq) -> in_ports bar -> ports bar mod 32 = 0 -> ports bar + r < 65536 ->
  let s' := snd (pci_register c p v d r s) in fst (pci_register c p v d r s) = 0 /\ seen s' = seen s /\
  (forall a x, 0 <= a < 2 ^ 32 -> 0 <= x < 256 -> ports bar <= a <= ports bar + r ->
     sys_inb input p a s' = (input a, {| lo := lo s'; hi := hi s'; seen := seen s ++ [(p, a, None)] |}) /\ sys_outb p a x s' = (ERR_OK, {| lo := lo s'; hi := hi s'; seen := seen s ++ [(p, a, Some x)] |})) /\
  (forall a x, a < ports bar \/ ports bar + r < a -> sys_inb input p a s' = (2 ^ 32 - ERR_EPERM, s') /\ sys_outb p a x s' = (2 ^ 32 - ERR_EPERM, s')) /\
  (forall q a, q <> p -> fst (sys_inb input q a s') = fst (sys_inb input q a s)).
Proof.
  intros c input s p v d r b dv f bar irq C Hr E _ G2 G3 s'. pose proof (open_bar _ _ _ _ _ _ _ _ C E) as Hbar.
  assert (Eb : bar / 32 * 32 = ports bar) by (clear - G2; unfold ports in *; lia). assert (P0 : 0 <= ports bar) by (clear - Hbar; unfold ports; lia).
  assert (U1 : u16 (ports bar) = ports bar) by (unfold u16; apply Z.mod_small; clear - P0 G3 Hr; lia). assert (U2 : u16 (u32 (ports bar + r)) = ports bar + r) by (unfold u16, u32; rewrite (Z.mod_small _ (2 ^ 32)) by (clear - P0 G3 Hr; lia); apply Z.mod_small; clear - P0 G3 Hr; lia).
  assert (Es : s' = {| lo := upd (lo s) p (ports bar); hi := upd (hi s) p (ports bar + r); seen := seen s |}) by (unfold s', pci_register; rewrite E; cbn [snd]; rewrite base_ok, Eb, U1, U2 by exact Hbar; reflexivity).
  split; [unfold pci_register; rewrite E; reflexivity|]. rewrite Es. cbn [seen lo hi]. split; [reflexivity|]. unfold sys_inb, sys_outb. cbn [lo hi seen]. rewrite !upd_same. split; [|split].
  - intros a x Ha Hx Hp. replace ((a <? ports bar) || (ports bar + r <? a)) with false by (symmetry; apply orb_false_iff; split; apply Z.ltb_ge; lia).
    assert (U : u16 a = a) by (unfold u16; apply Z.mod_small; lia). assert (V : u8 x = x) by (unfold u8; apply Z.mod_small; lia). rewrite U, V. split; reflexivity.
  - intros a x Hp. replace ((a <? ports bar) || (ports bar + r <? a)) with true by (symmetry; apply orb_true_iff; destruct Hp; [left|right]; apply Z.ltb_lt; lia). split; reflexivity.
  - intros q a N. rewrite !upd_other by exact N. destruct ((a <? lo s q) || (hi s q <? a)); reflexivity.
Qed.
Print Assumptions C99_register.

(** ** Refutations *)
Definition none : space := fun _ _ _ _ => 255.
(** A function at 0, 3, 0 with these bytes in its first 64. *)
Definition one (l : list Z) : space := fun b d f r => if (b =? 0) && (d =? 3) && (f =? 0) && (0 <=? r) && (r <? 64) then nth (Z.to_nat r) l 0 else 255.
Definition card (header bist bar : Z) : list Z := [0xec; 0x10; 0x29; 0x80; 0; 0; 0; 0; 0; 0; 0; 2; 0; 0; header; bist; bar mod 256; bar / 256 mod 256; bar / 65536 mod 256; bar / 16777216] ++ repeat 0 40 ++ [11; 1; 0; 0].
Lemma one_bytes : forall l, forallb (fun v => (0 <=? v) && (v <? 256)) l = true -> bytes (one l).
Proof.
  intros l H b d f r. unfold one. destruct (_ && _); [|lia]. rewrite forallb_forall in H. destruct (Nat.lt_ge_cases (Z.to_nat r) (length l)) as [L|L]; [specialize (H _ (nth_In l 0 L)); lia|rewrite nth_overflow by exact L; lia].
Qed.

(** A partition that finds a device with a memory address of its choice of low bits 0 may touch every port of the machine: it names the range itself. *)
Theorem C99_range_refuted : forall c input p v d b dv f bar irq a, bytes c -> pci_open c v d = Some (b, dv, f, bar, irq) -> ports bar mod 65536 = 0 -> 0 <= a < 65536 ->
  sys_inb input p a (snd (pci_register c p v d 65535 boot)) = (input a, {| lo := lo (snd (pci_register c p v d 65535 boot)); hi := hi (snd (pci_register c p v d 65535 boot)); seen := [(p, a, None)] |}).
Proof.
  intros c input p v d b dv f bar irq a C E M Ha. pose proof (open_bar _ _ _ _ _ _ _ _ C E) as Hbar. unfold pci_register. rewrite E. cbn [snd lo hi seen]. rewrite base_ok by exact Hbar.
  assert (L : u16 (bar / 32 * 32) = 0) by (unfold u16, ports in *; clear - M Hbar; lia). assert (H : u16 (u32 (bar / 32 * 32 + 65535)) = 65535) by (unfold u16, u32, ports in *; clear - M Hbar; lia). rewrite L, H.
  unfold sys_inb. cbn [lo hi seen boot]. rewrite !upd_same. replace ((a <? 0) || (65535 <? a)) with false by (symmetry; apply orb_false_iff; split; apply Z.ltb_ge; lia).
  replace (u16 a) with a by (unfold u16; symmetry; apply Z.mod_small; lia). reflexivity.
Qed.
Print Assumptions C99_range_refuted.

(** Every partition may read and write port 0 without any registration. *)
Theorem C99_port0_refuted : forall input p x, sys_inb input p 0 boot = (input 0, {| lo := lo boot; hi := hi boot; seen := [(p, 0, None)] |}) /\ fst (sys_outb p 0 x boot) = ERR_OK.
Proof. intros input p x. split; reflexivity. Qed.
Print Assumptions C99_port0_refuted.

(** A range of [n] ports opens [n] + 1. *)
Theorem C99_last_refuted : exists c v d b dv f bar irq n p input, bytes c /\ pci_open c v d = Some (b, dv, f, bar, irq) /\ in_ports bar /\ ports bar mod 32 = 0 /\
  seen (snd (sys_inb input p (ports bar + n) (snd (pci_register c p v d n boot)))) = [(p, ports bar + n, None)].
Proof.
  exists (one (card 0 0 0xc101)), 0x10ec, 0x8029, 0, 3, 0, 0xc101, 11, 32, 1, (fun _ => 0). split; [apply one_bytes; vm_compute; reflexivity|]. repeat split; vm_compute; reflexivity.
Qed.
Print Assumptions C99_last_refuted.

(** Ports that do not begin at a multiple of 32: those before them, of another device, are opened too, and the last of the range are not. *)
Theorem C99_align_refuted : exists c v d b dv f bar irq n p input, bytes c /\ pci_open c v d = Some (b, dv, f, bar, irq) /\ in_ports bar /\ 0 < n /\
  seen (snd (sys_inb input p (ports bar - 16) (snd (pci_register c p v d n boot)))) = [(p, ports bar - 16, None)] /\ fst (sys_inb input p (ports bar + n - 1) (snd (pci_register c p v d n boot))) = 2 ^ 32 - ERR_EPERM.
Proof.
  exists (one (card 0 0 0xc111)), 0x10ec, 0x8029, 0, 3, 0, 0xc111, 11, 16, 1, (fun _ => 0). split; [apply one_bytes; vm_compute; reflexivity|]. repeat split; vm_compute; reflexivity.
Qed.
Print Assumptions C99_align_refuted.

(** Ports at the end of the space: the range wraps and opens nothing. *)
Theorem C99_wrap_refuted : exists c v d b dv f bar irq p, bytes c /\ pci_open c v d = Some (b, dv, f, bar, irq) /\ in_ports bar /\ ports bar = 65504 /\
  forall input a, fst (sys_inb input p a (snd (pci_register c p v d 32 boot))) = 2 ^ 32 - ERR_EPERM.
Proof.
  exists (one (card 0 0 0xffe1)), 0x10ec, 0x8029, 0, 3, 0, 0xffe1, 11, 1. split; [apply one_bytes; vm_compute; reflexivity|]. split; [vm_compute; reflexivity|]. split; [reflexivity|]. split; [reflexivity|].
  intros input a. assert (E : snd (pci_register (one (card 0 0 0xffe1)) 1 0x10ec 0x8029 32 boot) = {| lo := upd (fun _ => 0) 1 65504; hi := upd (fun _ => 0) 1 0; seen := [] |}).
  { unfold pci_register. assert (O : pci_open (one (card 0 0 0xffe1)) 0x10ec 0x8029 = Some (0, 3, 0, 0xffe1, 11)) by (vm_compute; reflexivity). rewrite O. cbn [snd]. reflexivity. }
  rewrite E. unfold sys_inb. cbn [lo hi]. rewrite !upd_same. destruct (Z.ltb_spec a 65504), (Z.ltb_spec 0 a); cbn [orb]; try reflexivity. exfalso. lia.
Qed.
Print Assumptions C99_wrap_refuted.

(** A device with several functions, one with a self test, and one beyond bus 7 are not found. *)
Theorem C99_found_refuted :
  (exists c b d f, bytes c /\ 0 <= b < 8 /\ 0 <= d < 32 /\ 0 <= f < 8 /\ kind c b d f = 0 /\ bist c b d f = 0 /\ pci_open c (vendor c b d f) (device c b d f) = None) /\
  (exists c b d f, bytes c /\ 0 <= b < 8 /\ 0 <= d < 32 /\ 0 <= f < 8 /\ c b d f 14 = 0 /\ pci_open c (vendor c b d f) (device c b d f) = None) /\
  (exists c b d f, bytes c /\ 0 <= b < 256 /\ 0 <= d < 32 /\ 0 <= f < 8 /\ c b d f 14 = 0 /\ bist c b d f = 0 /\ pci_open c (vendor c b d f) (device c b d f) = None).
Proof.
  split; [|split].
  - exists (one (card 128 0 0xc101)), 0, 3, 0. split; [apply one_bytes; vm_compute; reflexivity|]. repeat split; try lia; vm_compute; reflexivity.
  - exists (one (card 0 128 0xc101)), 0, 3, 0. split; [apply one_bytes; vm_compute; reflexivity|]. repeat split; try lia; vm_compute; reflexivity.
  - exists (fun b d f r => one (card 0 0 0xc101) (b - 9) d f r), 9, 3, 0. split; [intros b d f r; apply (one_bytes (card 0 0 0xc101)); vm_compute; reflexivity|]. repeat split; try lia; vm_compute; reflexivity.
Qed.
Print Assumptions C99_found_refuted.

Section Examples.
Let c := one (card 0 0 0xc101).
Example ex_bytes : bytes c.
Proof. apply one_bytes. vm_compute. reflexivity. Qed.
Example ex_open : pci_open c 0x10ec 0x8029 = Some (0, 3, 0, 0xc101, 11) /\ in_ports 0xc101 /\ ports 0xc101 mod 32 = 0 /\ ports 0xc101 + 31 < 65536.
Proof. repeat split; vm_compute; reflexivity. Qed.
Example ex_none : pci_open none 0x10ec 0x8029 = None.
Proof. vm_compute. reflexivity. Qed.
Example ex_run : seen (run c (fun _ => 7) [Outb 1 0xc100 5; Register 1 0x10ec 0x8029 31; Inb 2 0xc100; Outb 1 0xc100 5; Inb 1 0xc11f; Inb 1 0xc120] boot) = [(1, 0xc100, Some 5); (1, 0xc11f, None)].
Proof. vm_compute. reflexivity. Qed.
Example ex_memory : exists b dv f irq, pci_open (one (card 0 0 0xfd000000)) 0x10ec 0x8029 = Some (b, dv, f, 0xfd000000, irq) /\ ports 0xfd000000 mod 65536 = 0.
Proof. exists 0, 3, 0, 11. split; vm_compute; reflexivity. Qed.
End Examples.
