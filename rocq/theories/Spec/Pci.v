(** Configuration space of PCI (PCI Local Bus Specification 3.0, sections 3.2.2.3.2 and 6). *)
From Verif Require Import Model.Base.

(** The bytes of the configuration space of each function: bus, device, function, offset. Where there is none, all bytes are 255. *)
Definition space := Z -> Z -> Z -> Z -> Z.
Definition bytes (c : space) : Prop := forall b d f r, 0 <= c b d f r < 256.
Definition field (v n w : Z) : Z := v / 2 ^ n mod 2 ^ w.
(** What a read of the data port gives when [a] is in the address port: 32 bits of the register it names, if bit 31 is set. *)
Definition data (c : space) (a : Z) : Z :=
  if field a 31 1 =? 1
  then let g i := c (field a 16 8) (field a 11 5) (field a 8 3) (field a 2 6 * 4 + i) in g 0 + 256 * g 1 + 65536 * g 2 + 16777216 * g 3
  else 2 ^ 32 - 1.

(** Identity, kind of header (bit 7 of its byte says whether the device has several functions), first base address and interrupt line of a function. *)
Definition vendor (c : space) (b d f : Z) : Z := c b d f 0 + 256 * c b d f 1.
Definition device (c : space) (b d f : Z) : Z := c b d f 2 + 256 * c b d f 3.
Definition kind (c : space) (b d f : Z) : Z := c b d f 14 mod 128.
Definition bist (c : space) (b d f : Z) : Z := c b d f 15.
Definition bar0 (c : space) (b d f : Z) : Z := c b d f 16 + 256 * c b d f 17 + 65536 * c b d f 18 + 16777216 * c b d f 19.
Definition line (c : space) (b d f : Z) : Z := c b d f 60.
(** A base address is one of ports if bit 0 is set; the ports begin at the address without its two low bits. *)
Definition in_ports (bar : Z) : Prop := bar mod 2 = 1.
Definition ports (bar : Z) : Z := bar / 4 * 4.
(** The order of a search: by bus, device, function. *)
Definition before (b d f b' d' f' : Z) : Prop := b < b' \/ b = b' /\ (d < d' \/ d = d' /\ f < f').
