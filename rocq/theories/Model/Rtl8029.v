(** kernel/drivers/rtl8029.c and kernel/include/drivers/rtl8029.h on the card of Spec/Ne2000.v. The base address of the card is left out: a
    port is its offset. Debugging output is left out. *)
From Verif Require Import Model.Base Spec.Ne2000 Spec.NetSpec.

(** rtl8029.h:221-230. *)
Definition MEMSZ := 128.  Definition TXBUF := 64.  Definition RXBUF := 72.
(** rtl8029.h:49-70: sizes without padding; NET_DATA_MAXLEN, NET_DATA_MINLEN; offsets of the fields of pok_packet_t. *)
Definition PACKET := 1514.  Definition DATA_MAX := 1492.  Definition DATA_MIN := 38.
Definition SRC_OFF := 14.   Definition DST_OFF := 16.     Definition LEN_OFF := 18.  Definition DATA_OFF := 22.

(** rtl8029.c:36-39, NE2000_SELECT_PAGE. *)
Definition select (p : Z) (n : nic) : nic := outb 0 (Z.lor (Z.ldiff (inb 0 n) 0xC0) (Z.shiftl p 6)) n.
(** rtl8029.c:47-62, 77-92: abort, address, count and direction of remote DMA. *)
Definition remote_dma (off clear set count : Z) (n : nic) : nic :=
  let n1 := outb 0 (Z.lor (Z.ldiff (inb 0 n) 0x18) 0x20) n in
  let n2 := outb 9 (Z.shiftr off 8) (outb 8 off n1) in
  let n3 := outb 11 (Z.shiftr count 8) (outb 10 count n2) in
  outb 0 (Z.lor (Z.ldiff (inb 0 n3) clear) set) n3.
(** rtl8029.c:41-69, ne2000_write; [l]: the [count] bytes at [buf]. *)
Definition ne_write (l : list Z) (off : Z) (n : nic) : nic := fold_left (fun n v => data_out v n) l (remote_dma off 0x28 0x10 (u16 (len l)) n).
(** rtl8029.c:71-99, ne2000_read: the bytes that go to [buf]. *)
Fixpoint dma_in (k : nat) (n : nic) : list Z * nic :=
  match k with O => ([], n) | S k => let (v, n1) := data_in n in let (l, n2) := dma_in k n1 in (v :: l, n2) end.
Definition ne_read (count off : Z) (n : nic) : list Z * nic := dma_in (Z.to_nat (u16 count)) (remote_dma off 0x30 0x08 (u16 count) n).

(** ** Memory of the driver *)
Record queue := mkQueue { q_len : Z; q_off : Z; q_data : Z -> Z }.
Record drv := mkDrv { card : nic; qs : Z -> queue; msg_nb : Z; mac : list Z; packet : Z -> Z }.
Definition set_card (n : nic) (d : drv) : drv := mkDrv n (qs d) (msg_nb d) (mac d) (packet d).
(** [packet]: the local variable recv_packet or packet, byte by byte, with what was on the stack before. *)
Definition set_packet (p : Z -> Z) (d : drv) : drv := mkDrv (card d) (qs d) (msg_nb d) (mac d) p.
Definition fill (p : Z -> Z) (off : Z) (l : list Z) : Z -> Z := fun a => if (off <=? a) && (a <? off + len l) then nth (Z.to_nat (a - off)) l 0 else p a.
Definition half (p : Z -> Z) (a : Z) : Z := p a + 256 * p (a + 1).

(** The configuration: pok_global_ports_to_local_ports with POK_CONFIG_NB_GLOBAL_PORTS elements, POK_CONFIG_NB_INPUT_VIRTUALPORT, RECV_BUF_SZ. *)
Record conf := mkConf { g2l : Z -> Z; nb_global : Z; nb_queues : Z; buf_sz : Z }.

(** rtl8029.c:105-135, rtl8029_enqueue. [None]: an element beyond an array. *)
Fixpoint copy_in (B : Z) (k : nat) (p : Z -> Z) (i off : Z) (m : Z -> Z) : Z -> Z :=
  match k with O => m | S k => copy_in B k p (i + 1) ((off + 1) mod B) (upd m off (p (DATA_OFF + i))) end.
Definition enqueue (C : conf) (d : drv) : option drv :=
  let dst := half (packet d) DST_OFF in let ln := half (packet d) LEN_OFF in
  if negb (dst <? nb_global C) then None
  else let i := g2l C dst in
  if negb (i <? nb_queues C) then None
  else let q := qs d i in
  if buf_sz C <? q_len q + ln then Some d
  else
    let m := copy_in (buf_sz C) (Z.to_nat ln) (packet d) 0 ((q_off q + q_len q) mod buf_sz C) (q_data q) in
    Some (mkDrv (card d) (upd (qs d) i (mkQueue (q_len q + ln) (q_off q) m)) (u32 (msg_nb d + 1)) (mac d) (packet d)).

(** ** Reception *)
Inductive result := Done (d : drv) | Fault | More (d : drv).
(** rtl8029.c:418-451, one turn of the loop: the frame is read at page BNRY + 1. [Fault]: more bytes than recv_packet has, or an element beyond
    an array. *)
Definition take (C : conf) (start : Z) (d : drv) : option drv :=
  let off := u16 (Z.shiftl start 8) in
  let (h, n1) := ne_read 4 off (card d) in
  let next := nth 1 h 0 in let size := nth 2 h 0 + 256 * nth 3 h 0 in
  let count := u16 (size - 4) in
  if PACKET <? count then None
  else
    let (l, n2) := ne_read count (u16 (off + 4)) n1 in
    match enqueue C (set_packet (fill (packet d) 0 l) (set_card n2 d)) with
    | None => None
    | Some d2 => Some (set_card (outb 3 (if MEMSZ <? next then RXBUF - 1 else next - 1) (card d2)) d2)
    end.
Fixpoint poll_loop (C : conf) (fuel : nat) (d : drv) : result :=
  match fuel with
  | O => More d
  | S f =>
      let start := u8 (inb 3 (card d) + 1) in
      let n1 := select 1 (card d) in
      let stop := inb 7 n1 in
      let d1 := set_card (select 0 n1) d in
      if stop mod MEMSZ =? start mod MEMSZ + 1 then Done (set_card (outb 7 1 (card d1)) d1)
      else match take C start d1 with None => Fault | Some d2 => poll_loop C f d2 end
  end.
(** rtl8029.c:397-458, rtl8029_poll. [More]: the loop has not ended after [fuel] turns. *)
Definition poll (C : conf) (fuel : nat) (d : drv) : result :=
  let d1 := set_card (select 0 (card d)) d in
  if negb (Z.testbit (inb 7 (card d1)) 0) then Done d1
  else match poll_loop C fuel d1 with Done d2 => Done (set_card (outb 7 1 (card d2)) d2) | r => r end.

(** rtl8029.c:273-302, rtl8029_read: the bytes that go to [data]; the callers give port numbers unchecked. *)
Fixpoint copy_out (B : Z) (k : nat) (off : Z) (m : Z -> Z) : list Z :=
  match k with O => [] | S k => m off :: copy_out B k ((off + 1) mod B) m end.
Definition read (C : conf) (port ln : Z) (d : drv) : option (list Z * drv) :=
  if negb (port <? nb_queues C) then None
  else
    let q := qs d port in let size := if ln <? q_len q then ln else q_len q in
    if q_len q =? 0 then Some ([], d)
    else Some (copy_out (buf_sz C) (Z.to_nat size) (q_off q) (q_data q),
               mkDrv (card d) (upd (qs d) port (mkQueue (q_len q - size) ((q_off q + size) mod buf_sz C) (q_data q))) (msg_nb d) (mac d) (packet d)).

(** rtl8029.c:159-206, one turn of the loop of rtl8029_poll_and_read; [bad]: invalid_local_port; [true]: the loop ends. *)
Definition take2 (C : conf) (bad start : Z) (d : drv) : option (bool * drv) :=
  let off := u16 (Z.shiftl start 8) in
  let (h, n1) := ne_read 4 off (card d) in
  let next := nth 1 h 0 in let size := nth 2 h 0 + 256 * nth 3 h 0 in
  let count := u16 (size - 4) in
  if PACKET <? count then None
  else
    let (l, n2) := ne_read count (u16 (off + 4)) n1 in
    let d1 := set_packet (fill (packet d) 0 l) (set_card n2 d) in
    let dst := half (packet d1) DST_OFF in
    let past := fun d => set_card (outb 3 (if MEMSZ <? next then RXBUF - 1 else next - 1) (card d)) d in
    if negb (dst <? nb_global C) then None
    else if g2l C dst =? bad then Some (true, past d1)
    else match enqueue C d1 with None => None | Some d2 => Some (false, past d2) end.
Fixpoint poll_read_loop (C : conf) (bad : Z) (fuel : nat) (d : drv) : result :=
  match fuel with
  | O => More d
  | S f =>
      let start := u8 (inb 3 (card d) + 1) in
      let n1 := select 1 (card d) in
      let stop := inb 7 n1 in
      let d1 := set_card (select 0 n1) d in
      if stop mod MEMSZ =? start mod MEMSZ + 1 then Done d1
      else match take2 C bad start d1 with None => Fault | Some (true, d2) => Done d2 | Some (false, d2) => poll_read_loop C bad f d2 end
  end.
(** rtl8029.c:139-267, rtl8029_poll_and_read. *)
Definition poll_and_read (C : conf) (bad : Z) (fuel : nat) (port ln : Z) (d : drv) : option (list Z * drv) :=
  let d1 := set_card (select 0 (card d)) d in
  match (if Z.testbit (inb 7 (card d1)) 0 then poll_read_loop C bad fuel d1 else Done d1) with
  | Done d2 =>
      if negb (port <? nb_queues C) then None
      else
        let q := qs d2 port in let size := if ln <? q_len q then ln else q_len q in
        let clear := fun d => set_card (outb 7 1 (card d)) d in
        if msg_nb d2 =? 0 then Some ([], clear d2)
        else if q_len q =? 0 then Some ([], d2)
        else
          let d3 := mkDrv (card d2) (upd (qs d2) port (mkQueue (q_len q - size) ((q_off q + size) mod buf_sz C) (q_data q))) (msg_nb d2 - 1) (mac d2) (packet d2) in
          Some (copy_out (buf_sz C) (Z.to_nat size) (q_off q) (q_data q), if msg_nb d3 =? 0 then clear d3 else d3)
  | _ => None
  end.

(** ** Transmission *)
Definition bytes (p : Z -> Z) (k : Z) : list Z := map (fun i => p (Z.of_nat i)) (seq 0 (Z.to_nat k)).
(** rtl8029.c:367-387: [None] when the loop that waits for the end of DMA does not end. *)
Definition send (snd : Z) (p : Z -> Z) (n : nic) : option nic :=
  let n1 := ne_write (bytes p snd) (TXBUF * 256) n in
  if Z.testbit (inb 7 n1) 6 then
    let n2 := outb 4 TXBUF n1 in
    let n3 := outb 6 (Z.shiftr snd 8) (outb 5 snd n2) in
    let n4 := outb 0 (Z.lor (inb 0 n3) 4) n3 in
    Some (outb 7 64 n4)
  else None.
(** rtl8029.c:346-388, the loop over the pieces of the message. The variable sndlen is declared nowhere in the repository (the file does not
    compile when the driver is selected); it is taken as a local size_t. *)
Fixpoint pieces (fuel : nat) (p : Z -> Z) (msg : list Z) (n : nic) : option ((Z -> Z) * nic) :=
  match msg with
  | [] => Some (p, n)
  | _ =>
      match fuel with
      | O => None
      | S f =>
          let l := len msg in
          let cpy := if l <=? DATA_MIN then l else if DATA_MAX <=? l then DATA_MAX else l in
          let snd := if l <=? DATA_MIN then 60 else if DATA_MAX <=? l then 1514 else 22 + cpy in
          let p1 := fill (fill p LEN_OFF (le16 cpy)) DATA_OFF (firstn (Z.to_nat cpy) msg) in
          match send snd p1 n with None => None | Some n1 => pieces f p1 (skipn (Z.to_nat cpy) msg) n1 end
      end
  end.
(** rtl8029.c:316-391, rtl8029_write; [dests]: what pok_port_virtual_destination gives for each destination, [None] for an error; without
    POK_NEEDS_MAC_ADDR the frames go to all nodes. *)
Definition broadcast : list Z := [255; 255; 255; 255; 255; 255].
Fixpoint write_to (port : Z) (dests : list (option Z)) (msg : list Z) (m : list Z) (p : Z -> Z) (n : nic) : option ((Z -> Z) * nic) :=
  match dests with
  | [] => Some (p, n)
  | None :: r => write_to port r msg m p n
  | Some dest :: r =>
      let p1 := fill (fill (fill (fill (fill p 6 m) 0 broadcast) 12 [0x42; 0x42]) SRC_OFF (le16 port)) DST_OFF (le16 dest) in
      match pieces (length msg) p1 msg n with None => None | Some (p2, n2) => write_to port r msg m p2 n2 end
  end.
Definition write (port : Z) (dests : list (option Z)) (msg : list Z) (d : drv) : option drv :=
  match write_to port dests msg (mac d) (packet d) (card d) with None => None | Some (p, n) => Some (set_packet p (set_card n d)) end.

(** ** rtl8029.c:495-597, rtl8029_init, after pci_register; the first call. *)
Definition init (d : drv) : drv :=
  let n1 := outb 0 1 (select 0 (card d)) in
  let n2 := outb 11 0 (outb 10 0 (outb 3 RXBUF (outb 2 MEMSZ (outb 1 RXBUF n1)))) in
  let n3 := outb 7 (RXBUF + 1) (select 1 n2) in
  let (b, n4) := ne_read 12 0 n3 in
  let m := map (fun i => nth (2 * i) b 0) (seq 0 6) in
  let n5 := fold_left (fun n i => outb (1 + Z.of_nat i) (nth i m 0) n) (seq 0 6) n4 in
  let n6 := outb 7 0xFF (outb 0 2 (select 0 n5)) in
  mkDrv n6 (fun _ => mkQueue 0 0 (fun _ => 0)) 0 m (packet d).

(** ** Histories: frames arrive, the driver is called. [None]: a fault, or no end. *)
Definition exec (C : conf) (fuel : nat) (d : drv) (e : event) : option (list Z * drv) :=
  match e with
  | Frame f _ _ => Some ([], set_card (receive f (card d)) d)
  | Poll => match poll C fuel d with Done d' => Some ([], d') | _ => None end
  | Read p ln => read C p ln d
  | Send port dests m => match write port dests m d with Some d' => Some ([], d') | None => None end
  end.
Fixpoint run (C : conf) (fuel : nat) (d : drv) (l : list event) : option (list (list Z) * drv) :=
  match l with
  | [] => Some ([], d)
  | e :: r => match exec C fuel d e with None => None | Some (o, d1) => match run C fuel d1 r with None => None | Some (os, d2) => Some (o :: os, d2) end end
  end.
