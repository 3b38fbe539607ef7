(** An NE2000 network card (National Semiconductor DP8390 data sheet, Realtek RTL8029AS data sheet), as far as POK's driver uses it: the
    receive ring, remote DMA with bytes, transmission. Transmission takes no time. The configuration registers TCR, RCR, DCR and IMR and
    the reset state are left out; the receive status says that the frame is good. *)
From Verif Require Import Model.Base.

Definition len (l : list Z) : Z := Z.of_nat (length l).
Inductive reg := CR | ISR | BNRY | CURR | PSTART | PSTOP | TPSR | TBCR | RSAR | RBCR.
Definition reg_eqb (a b : reg) : bool :=
  match a, b with
  | CR, CR | ISR, ISR | BNRY, BNRY | CURR, CURR | PSTART, PSTART | PSTOP, PSTOP | TPSR, TPSR | TBCR, TBCR | RSAR, RSAR | RBCR, RBCR => true
  | _, _ => false
  end.
(** [par]: the physical address (1 to 6) and the multicast registers (8 to 15) of page 1; [ram]: the memory of the card by bytes, with the address PROM at its beginning; [wire]: the frames that were sent. *)
Record nic := mkNic { rg : reg -> Z; par : Z -> Z; ram : Z -> Z; wire : list (list Z) }.
Definition setr (r : reg) (v : Z) (n : nic) : nic := mkNic (fun r' => if reg_eqb r' r then v else rg n r') (par n) (ram n) (wire n).
Definition set_ram (m : Z -> Z) (n : nic) : nic := mkNic (rg n) (par n) m (wire n).
Definition set_par (p : Z -> Z) (n : nic) : nic := mkNic (rg n) p (ram n) (wire n).
Definition set_wire (w : list (list Z)) (n : nic) : nic := mkNic (rg n) (par n) (ram n) w.

Definition page (n : nic) : Z := Z.shiftr (rg n CR) 6.
(** Bits 3 to 5 of CR: 1 remote read, 2 remote write, 4 to 7 none. *)
Definition remote (n : nic) : Z := Z.land (Z.shiftr (rg n CR) 3) 7.

(** Registers that can be read without effect. *)
Definition inb (r : Z) (n : nic) : Z :=
  if r =? 0 then rg n CR
  else if page n =? 0 then
    if r =? 3 then rg n BNRY else if r =? 7 then rg n ISR else if r =? 12 then 1 else 0
  else if page n =? 1 then
    if r =? 7 then rg n CURR else if (1 <=? r) && (r <=? 15) then par n r else 0
  else 0.
(** The command TXP sends TBCR bytes from page TPSR. *)
Definition sent (n : nic) : list Z := map (fun i => ram n (rg n TPSR * 256 + Z.of_nat i)) (seq 0 (Z.to_nat (rg n TBCR))).
Definition command (v : Z) (n : nic) : nic :=
  if Z.testbit v 2 then set_wire (wire n ++ [sent n]) (setr ISR (Z.lor (rg n ISR) 2) (setr CR (Z.ldiff v 4) n)) else setr CR v n.
Definition lo8 (v w : Z) : Z := w / 256 * 256 + v mod 256.
Definition hi8 (v w : Z) : Z := v mod 256 * 256 + w mod 256.
Definition outb (r v : Z) (n : nic) : nic :=
  let v := v mod 256 in
  if r =? 0 then command v n
  else if page n =? 0 then
    if r =? 1 then setr PSTART v n else if r =? 2 then setr PSTOP v n else if r =? 3 then setr BNRY v n else if r =? 4 then setr TPSR v n
    else if r =? 5 then setr TBCR (lo8 v (rg n TBCR)) n else if r =? 6 then setr TBCR (hi8 v (rg n TBCR)) n
    else if r =? 7 then setr ISR (Z.ldiff (rg n ISR) v) n
    else if r =? 8 then setr RSAR (lo8 v (rg n RSAR)) n else if r =? 9 then setr RSAR (hi8 v (rg n RSAR)) n
    else if r =? 10 then setr RBCR (lo8 v (rg n RBCR)) n else if r =? 11 then setr RBCR (hi8 v (rg n RBCR)) n else n
  else if page n =? 1 then
    if r =? 7 then setr CURR v n else if (1 <=? r) && (r <=? 15) then set_par (upd (par n) r v) n else n
  else n.
(** The data port: the address goes on, from the end of the ring to its beginning; the last byte sets RDC. When the count is zero the port
    gives no data (here 0). *)
Definition advance (n : nic) : nic :=
  let a := rg n RSAR + 1 in
  let n1 := setr RBCR (rg n RBCR - 1) (setr RSAR (if a =? rg n PSTOP * 256 then rg n PSTART * 256 else a) n) in
  if rg n RBCR =? 1 then setr ISR (Z.lor (rg n ISR) 64) n1 else n1.
Definition data_in (n : nic) : Z * nic := if (remote n =? 1) && (0 <? rg n RBCR) then (ram n (rg n RSAR), advance n) else (0, n).
Definition data_out (v : Z) (n : nic) : nic :=
  if (remote n =? 2) && (0 <? rg n RBCR) then advance (set_ram (upd (ram n) (rg n RSAR) (v mod 256)) n) else n.

(** ** Reception *)
Definition le16 (v : Z) : list Z := [v mod 256; v / 256 mod 256].
(** A frame [f] occupies whole pages of the ring behind a header: status, next page, number of bytes with the header. [f] is what the card
    stores: it may or may not end with the four check bytes. *)
Definition pages (f : list Z) : Z := (len f + 4 + 255) / 256.
Definition next_page (f : list Z) (n : nic) : Z :=
  let q := rg n CURR + pages f in if rg n PSTOP <=? q then q - (rg n PSTOP - rg n PSTART) else q.
Definition header (f : list Z) (n : nic) : list Z := [1; next_page f n] ++ le16 (len f + 4).
Definition ring (n : nic) : Z := rg n PSTOP - rg n PSTART.
Definition store (p : Z) (l : list Z) (n : nic) (a : Z) : Z :=
  let i := (a - p * 256) mod (ring n * 256) in
  if (rg n PSTART * 256 <=? a) && (a <? rg n PSTOP * 256) && (i <? len l) then nth (Z.to_nat i) l 0 else ram n a.
(** A frame for which there is no room is lost. *)
Definition room (f : list Z) (n : nic) : bool := pages f <=? (rg n BNRY - rg n CURR) mod ring n.
Definition receive (f : list Z) (n : nic) : nic :=
  if room f n then setr CURR (next_page f n) (setr ISR (Z.lor (rg n ISR) 1) (set_ram (store (rg n CURR) (header f n ++ f) n) n))
  else setr ISR (Z.lor (rg n ISR) 16) n.

(** ** Frames of POK *)
(** Destination, source, type 0x4242, ports, number of bytes, two bytes without meaning, the bytes, and as many more as Ethernet asks for. *)
Record is_frame (f dst src : list Z) (sport dport : Z) (c : list Z) : Prop := {
  fr_head : firstn 20 f = dst ++ src ++ [0x42; 0x42] ++ le16 sport ++ le16 dport ++ le16 (len c);
  fr_data : firstn (length c) (skipn 22 f) = c;
  fr_len : len f = Z.max 60 (22 + len c);
  fr_max : len c <= 1492 }.
Definition octet (v : Z) : Prop := 0 <= v < 256.
Definition octets (l : list Z) : Prop := forall v, In v l -> octet v.

(** ** The card between calls of the driver *)
(** Started, page 0, no transmission; the ring is in pages 72 to 127. *)
Definition cr_ok (v : Z) : Prop := v = 2 \/ v = 0x0a \/ v = 0x12 \/ v = 0x22.
Record idle (n : nic) : Prop := { i_cr : cr_ok (rg n CR); i_start : rg n PSTART = 72; i_stop : rg n PSTOP = 128 }.
