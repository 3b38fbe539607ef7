(** C95: initialisation of the network driver and sending. *)
From Verif Require Import Model.Base Spec.Ne2000 Spec.NetSpec Model.Rtl8029 Proof.Tac Proof.NicProof Proof.RtlWriteProof Proof.RtlReadProof Proof.RtlPollProof.

(** rtl8029_write sends a message to every destination that exists, in order, each time cut into frames of POK that carry all of it; what has been received stays as it is, and the card
    is ready for the next call. *)
Theorem C95_write : forall d port dests msg, idle (card d) -> length (mac d) = 6%nat -> octets (mac d) -> (forall a, octet (packet d a)) -> octets msg ->
  exists d' fss, write port dests msg d = Some d' /\ wire (card d') = wire (card d) ++ concat fss /\ Forall2 (to_dest (mac d) port msg) dests fss /\
    idle (card d') /\ (forall r, In r [BNRY; CURR; PSTART; PSTOP] -> rg (card d') r = rg (card d) r) /\ Z.testbit (rg (card d') ISR) 0 = Z.testbit (rg (card d) ISR) 0 /\
    (forall a, 72 * 256 <= a < 128 * 256 -> ram (card d') a = ram (card d) a) /\ par (card d') = par (card d) /\ qs d' = qs d /\ mac d' = mac d.
Proof.
  intros d port dests msg Hi Hl Hm Hp Hg.
  destruct (write_to_ok dests port msg (mac d) (packet d) (card d) Hi Hl Hm Hp Hg) as (p' & n' & fss & E & (I & Pa & R & T & M) & W & F & O).
  exists (set_packet p' (set_card n' d)), fss. split; [unfold write; rewrite E; reflexivity|]. unfold set_packet, set_card. cbn [card qs mac].
  split; [exact W|]. split; [exact F|]. split; [exact I|]. split; [exact R|]. split; [exact T|]. split; [intros a Ha; apply M; lia|]. split; [exact Pa|]. split; reflexivity.
Qed.
Print Assumptions C95_write.

(** The first frames need no more room than Ethernet gives, and a message that fits in one frame takes one. *)
Theorem C95_sizes : forall src port msg dest fs f, to_dest src port msg (Some dest) fs -> In f fs -> 60 <= len f <= 1514.
Proof.
  intros src port msg dest fs f (cs & _ & _ & F) Hf. assert (exists c, is_frame f [255; 255; 255; 255; 255; 255] src port dest c) as (c & H).
  { clear - F Hf. induction F as [|f' c fs cs H F IH]; [destruct Hf|]. destruct Hf as [-> | Hf]; [exists c; exact H|exact (IH Hf)]. }
  rewrite (fr_len _ _ _ _ _ _ H). pose proof (fr_max _ _ _ _ _ _ H). lia.
Qed.
Print Assumptions C95_sizes.

(** rtl8029_init makes the card ready: an empty ring in pages 72 to 127, nothing pending, empty queues. *)
Theorem C95_init : forall d, Z.testbit (rg (card d) CR) 2 = false -> octet (rg (card d) CR) ->
  let d' := init d in idle (card d') /\ rg (card d') BNRY = 72 /\ rg (card d') CURR = 73 /\ Z.testbit (rg (card d') ISR) 0 = false /\
  ram (card d') = ram (card d) /\ wire (card d') = wire (card d) /\ (forall i, q_len (qs d' i) = 0 /\ q_off (qs d' i) = 0) /\ length (mac d') = 6%nat.
Proof.
  intros d H2 Hc. cbv zeta. destruct (init_ok d H2 Hc) as (A & B1 & B2 & B3 & B4 & B5 & B6 & B7 & B8).
  split; [exact A|]. split; [exact B1|]. split; [exact B2|]. split; [exact B3|]. split; [exact B5|]. split; [exact B6|]. split; [|rewrite B4; reflexivity].
  intros i. rewrite B7. split; reflexivity.
Qed.
Print Assumptions C95_init.

(** Refuted: the address is not read from the card. Page 1 is selected when the remote DMA is programmed, so that its address and its count go to the multicast registers; the count is 0
    and every byte that is read is nothing. Every node has the address 0, whatever is in the PROM. *)
Theorem C95_mac_refuted : forall d, Z.testbit (rg (card d) CR) 2 = false -> octet (rg (card d) CR) -> mac (init d) = [0; 0; 0; 0; 0; 0].
Proof. intros d H2 Hc. destruct (init_ok d H2 Hc) as (_ & _ & _ & _ & H & _). exact H. Qed.
Print Assumptions C95_mac_refuted.

Section Examples.
(** A card after reset, with an address in its PROM (each byte twice); on the stack the address is at each place. *)
Definition prom : list Z := [82; 82; 84; 84; 0; 0; 18; 18; 52; 52; 86; 86].
Definition card0 : nic := mkNic (fun r => if reg_eqb r CR then 0x21 else 0) (fun _ => 0) (fun a => nth (Z.to_nat a) prom 0) [].
Definition drv0 : drv := mkDrv card0 (fun _ => mkQueue 0 0 (fun _ => 0)) 0 [] (fun a => a mod 256).
Definition drv1 : drv := init drv0.
Definition sent_to (port : Z) (dests : list (option Z)) (msg : list Z) (d : drv) : list (list Z) := match write port dests msg d with None => [] | Some d' => wire (card d') end.

Example C95_init_ex : rg (card drv1) BNRY = 72 /\ par (card drv1) 10 = 12 /\ rg (card drv1) RSAR = 0 /\ mac drv1 = [0; 0; 0; 0; 0; 0] /\ map (ram (card drv1)) [0; 2; 4; 6; 8; 10] = [82; 84; 0; 18; 52; 86].
Proof. vm_compute. repeat split; reflexivity. Qed.
(** The hypotheses of [C95_write] hold after initialisation. *)
Example C95_ready_ex : idle (card drv1) /\ length (mac drv1) = 6%nat /\ octets (mac drv1) /\ (forall a, octet (packet drv1 a)).
Proof.
  destruct (init_ok drv0 eq_refl ltac:(cbn; lia)) as (H & _ & _ & _ & Hm & _ & _ & _ & Hp). unfold drv1. rewrite Hm, Hp. split; [exact H|]. split; [reflexivity|].
  split; [intros v Hv; cbn in Hv; unfold octet; intuition lia|]. intros a. apply Z.mod_pos_bound. lia.
Qed.
(** A message of 2000 bytes for two destinations, of which the second does not exist, takes two frames. *)
Example C95_write_ex : map len (sent_to 3 [Some 5; None] (repeat 7 2000) drv1) = [1514; 530].
Proof. vm_compute. reflexivity. Qed.
End Examples.

(** Refuted: a frame has no bytes but those of the message and zeros. The two bytes at 20 (udp.chk) and those behind a short message are what was on the stack of the kernel. *)
Theorem C95_leak_refuted : exists d msg f, idle (card d) /\ (forall a, octet (packet d a)) /\ write 3 [Some 5] msg d <> None /\ sent_to 3 [Some 5] msg d = [f] /\ len msg = 4 /\
  (forall i, 26 <= i < 60 -> nth (Z.to_nat i) f 0 = packet d i) /\ nth 20 f 0 = packet d 20 /\ packet d 20 = 20 /\ packet d 59 = 59.
Proof.
  destruct (C95_ready_ex) as (A & _ & _ & B). exists drv1, [1; 2; 3; 4].
  exists ([255; 255; 255; 255; 255; 255; 0; 0; 0; 0; 0; 0; 66; 66; 3; 0; 5; 0; 4; 0; 20; 21; 1; 2; 3; 4] ++ map Z.of_nat (seq 26 34)).
  split; [exact A|]. split; [exact B|]. split; [vm_compute; discriminate|]. split; [vm_compute; reflexivity|]. split; [reflexivity|]. split; [|repeat split; reflexivity].
  intros i Hi. assert (K : forallb (fun i => nth i ([255; 255; 255; 255; 255; 255; 0; 0; 0; 0; 0; 0; 66; 66; 3; 0; 5; 0; 4; 0; 20; 21; 1; 2; 3; 4] ++ map Z.of_nat (seq 26 34)) 0 =? Z.of_nat i mod 256) (seq 26 34) = true) by (vm_compute; reflexivity).
  rewrite forallb_forall in K. specialize (K (Z.to_nat i) ltac:(apply in_seq; lia)). apply Z.eqb_eq in K. rewrite K. rewrite Z2Nat.id by lia. reflexivity.
Qed.
Print Assumptions C95_leak_refuted.
